(* Validation of the model on the repository's own test data (concrete tests, not part of any proof).
   For each KVN file under ccsds_ndm/tests/data/kvn that has an XML file of the same name beside it, the model reads the
   KVN text as the object the XML file describes (the XML files spell some numbers differently, so numbers are compared
   written out without exponent), and reading back what it writes gives the same object.  This is what
   ccsds_ndm/tests/test_ndm_kvn_io.py checks of the program. *)
From Coq Require Import NArith ZArith List Bool String.
From Verif Require Import PyStr PyDec PyVal Schema KvnPre KvnTree KvnSeg XmlBind KvnBuild KvnWrite Samples.
Import ListNotations.
Local Open Scope string_scope.

Definition ascii_env : env := mkEnv (fun _ => false) (fun _ => false) (fun c => [c]) (fun _ => None) (fun _ _ => VStr []) false.
Fixpoint written_out (v : pyval) : pyval :=
  match v with
  | VDec d => VDec (fixed_point d)
  | VObj c vs => VObj c (map (fun p => (fst p, written_out (snd p))) vs)
  | VList l => VList (map written_out l)
  | _ => v
  end.
Fixpoint same (a b : pyval) {struct a} : bool :=
  match a, b with
  | VNone, VNone => true
  | VStr x, VStr y => str_eqb x y
  | VInt x, VInt y => Z.eqb x y
  | VDec (DFin n c e), VDec (DFin n' c' e') => Bool.eqb n n' && N.eqb c c' && Z.eqb e e'
  | VEnum c m s, VEnum c' m' s' => String.eqb c c' && String.eqb m m' && str_eqb s s'
  | VObj c vs, VObj c' vs' =>
      String.eqb c c' &&
      (fix go l l' := match l, l' with
                      | [], [] => true
                      | (k, x) :: r, (k', x') :: r' => String.eqb k k' && same x x' && go r r'
                      | _, _ => false
                      end) vs vs'
  | VList l, VList l' =>
      (fix go l l' := match l, l' with [], [] => true | x :: r, x' :: r' => same x x' && go r r' | _, _ => false end) l l'
  | _, _ => false
  end.
Definition matches (s : string * string * pyval) : bool :=
  let '(_, k, o) := s in
  match kvn_from_string ascii_env (lit k) with
  | Ok v =>
      same (written_out v) (written_out o) &&
      match kvn_to_string ascii_env v with
      | Ok t => match kvn_from_string ascii_env t with Ok v' => same v v' | Err _ => false end
      | Err _ => false
      end
  | Err _ => false
  end.
Example samples_match : (List.length samples = 13 /\ forallb matches samples = true)%nat.
Proof. vm_compute. split; reflexivity. Qed.
