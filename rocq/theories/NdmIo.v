(* ndm_io.py: format identification, dispatch, files; and the reader object of
   ndm_kvn_io.py as a state machine. *)
From Coq Require Import NArith List Bool String Arith.
From Verif Require Import PyStr PyDec PyVal Schema KvnPre KvnTree KvnSeg XmlBind KvnBuild
     NdmXml KvnWrite.
Import ListNotations.

(* ndm_io.py 18-25; [FOther]: any other value a caller may pass as data_format *)
Inductive format := FXml | FKvn | FJson | FOther.

(* ndm_io.py 168-198 _identify_data_format *)
Definition identify_format (src : str) : res format :=
  let s := strip src in
  if startswith (lit "CCSDS_") s then Ok FKvn
  else if startswith (lit "<") s && endswith (lit ">") s then Ok FXml
  else if startswith (lit "[") s && endswith (lit "]") s then Ok FJson
  else Err ValueError.

(* a path argument: a pathlib.Path or a plain str naming the same file *)
Inductive patharg := PPath (p : str) | PStr (p : str).
Definition path_name (p : patharg) : str := match p with PPath s => s | PStr s => s end.

(* files by name; a file holds its decoded characters (the encoding itself is not modelled),
   line ends as they are stored *)
Definition fsys := str -> option str.
Definition fs_set (fs : fsys) (p t : str) : fsys :=
  fun q => if str_eqb q p then Some t else fs q.

Definition c_cr : N := 13.
(* files opened in text mode ("universal newlines"): "\r\n" and "\r" are read as "\n" *)
Fixpoint read_newlines (s : str) : str :=
  match s with
  | [] => []
  | c :: r =>
    if N.eqb c c_cr then
      c_nl :: match r with
              | d :: r' => if N.eqb d c_nl then read_newlines r' else read_newlines r
              | [] => []
              end
    else c :: read_newlines r
  end.
(* and "\n" is written as os.linesep *)
Definition write_newlines (crlf : bool) (s : str) : str :=
  flat_map (fun c => if crlf && N.eqb c c_nl then [c_cr; c_nl] else [c]) s.

Section Io.
Variable u : env.
Variable et_root : str -> option str.
Variable xs_parse : str -> res pyval.
Variable xs_render : xcfg -> pyval -> res str.
Variable decode : list N -> option str.     (* bytes.decode(); None = UnicodeDecodeError *)
Variable can_open : str -> bool.            (* open(p, "w") succeeds *)
Variable can_encode : str -> bool.          (* the text can be encoded *)

(* ndm_io.py 70-105 *)
Definition io_from_string (src : str) : res pyval :=
  do f <- identify_format src;
  match f with
  | FXml => snd (xml_from_string et_root xs_parse xmlio_new src)
  | FKvn => kvn_from_string u src
  | FJson => Err NotImplementedErr
  | FOther => Err ValueError
  end.

(* pathlib.Path.read_text(), open(p, "r").read() *)
Definition read_text (fs : fsys) (p : patharg) : res str :=
  do t <- guard_opt (fs (path_name p)) OSErr;
  Ok (read_newlines t).

(* ndm_io.py 33-51: Path(p).read_text(); both kinds of argument are accepted *)
Definition io_from_path (fs : fsys) (p : patharg) : res pyval :=
  do t <- read_text fs p;
  io_from_string t.

(* ndm_kvn_io.py 164-181 *)
Definition kvn_from_path (fs : fsys) (p : patharg) : res pyval :=
  do t <- read_text fs p;
  kvn_from_string u t.

(* ndm_xml_io.py 69-87, on a new NdmXmlIo *)
Definition xml_from_path (fs : fsys) (p : patharg) : res pyval :=
  do t <- read_text fs p;
  snd (xml_from_string et_root xs_parse xmlio_new t).

(* ndm_io.py 53-68 (UnicodeDecodeError is a ValueError); no newline is translated *)
Definition io_from_bytes (b : list N) : res pyval :=
  do t <- guard_opt (decode b) ValueError;
  io_from_string t.

(* ndm_xml_io.py 89-104, on a new NdmXmlIo *)
Definition xml_from_bytes (b : list N) : res pyval :=
  do t <- guard_opt (decode b) ValueError;
  snd (xml_from_string et_root xs_parse xmlio_new t).

(* ndm_io.py 107-136; falls off the end (None) for any other format.  The keyword arguments
   are passed on to the XML writer only. *)
Definition io_to_string (v : pyval) (f : format) (cfg : xcfg) : res (option str) :=
  match f with
  | FXml => do s <- snd (xml_to_string xs_render xmlio_new v cfg); Ok (Some s)
  | FKvn => do s <- kvn_to_string u v; Ok (Some s)
  | FJson => Err NotImplementedErr
  | FOther => Ok None
  end.

(* pathlib.Path.write_text: opening truncates; a text that cannot be encoded then raises
   (UnicodeEncodeError, a ValueError) *)
Definition write_text (fs : fsys) (p t : str) : fsys * res unit :=
  if can_open p then
    if can_encode t then (fs_set fs p (write_newlines (os_crlf u) t), Ok tt) else (fs_set fs p [], Err ValueError)
  else (fs, Err OSErr).

(* ndm_xml_io.py 175-201 *)
Definition xml_to_file (fs : fsys) (v : pyval) (p : patharg) (cfg : xcfg) : fsys * res unit :=
  match snd (xml_to_string xs_render xmlio_new v cfg) with
  | Err e => (fs, Err e)
  | Ok t => write_text fs (path_name p) t
  end.

(* ndm_kvn_io.py 218-229: the attribute write_text is looked up before to_string runs;
   a plain str has none *)
Definition kvn_to_file (fs : fsys) (v : pyval) (p : patharg) : fsys * res unit :=
  match p with
  | PStr _ => (fs, Err AttributeError)
  | PPath n => match kvn_to_string u v with
               | Err e => (fs, Err e)
               | Ok t => write_text fs n t
               end
  end.

(* ndm_io.py 138-165 *)
Definition io_to_file (fs : fsys) (v : pyval) (f : format) (p : patharg) (cfg : xcfg)
  : fsys * res unit :=
  match f with
  | FXml => xml_to_file fs v p cfg
  | FKvn => kvn_to_file fs v p
  | FJson => (fs, Err NotImplementedErr)
  | FOther => (fs, Ok tt)
  end.
End Io.

(* ---- NdmKvnIo as an object with state: ndm_kvn_io.py 161-162, 183-216 ---- *)
Record kvnio := mkKvnio { ki_keys : list str; ki_lines : list line; ki_tree : option elem }.
Definition kvnio_new : kvnio := mkKvnio [] [] None.

Section Reader.
Variable u : env.

(* from_string of a reader object.  Every read of self._keys / self._lines / self.object_tree
   goes through the current state. *)
Definition kvnio_read (st : kvnio) (src : str) : kvnio * res pyval :=
  match pre_process src with
  | Err e => (st, Err e)                                   (* raised before line 461 *)
  | Ok lines =>
    let st1 := mkKvnio (keys_of lines) lines (ki_tree st) in       (* 461-464 *)
    match identify_data_type (ki_lines st1) with
    | Err e => (st1, Err e)
    | Ok c =>
      let del := deleted_keywords c in
      let st2 := mkKvnio (filter (fun k => negb (mem_str k del)) (ki_keys st1))
                         (filter (fun l => negb (mem_str (key_of l) del)) (ki_lines st1))
                         (ki_tree st1) in                          (* 203-207 *)
      match init_object_map c with
      | Err e => (st2, Err e)
      | Ok t =>
        let st3 := mkKvnio (ki_keys st2) (ki_lines st2) (Some t) in        (* 210 *)
        match ki_tree st3 with
        | None => (st3, Err AttributeError)
        | Some tr =>
          match identify u tr (ki_keys st3) (ki_lines st3) 0 with
          | Err e => (st3, Err e)
          | Ok (_, mm, e) =>
            let st4 := mkKvnio (ki_keys st3) (ki_lines st3) (Some (set_mm e mm)) in
            (st4, build_object u (set_mm e mm) (ki_lines st4))
          end
        end
      end
    end
  end.

(* the state after a history of reads *)
Definition kvnio_history (h : list str) : kvnio :=
  fold_left (fun st src => fst (kvnio_read st src)) h kvnio_new.
End Reader.
