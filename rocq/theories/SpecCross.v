(* Messages of any input format that can be written as KVN. *)
From Coq Require Import NArith List String.
From Verif Require Import PyStr PyVal Schema KvnPre NdmXml KvnWrite Spec SpecKvn SpecObj SpecMsg SpecBack SpecSchema SpecAgain.
Import ListNotations.
Local Open Scope string_scope.
Local Open Scope list_scope.

(* The XML parser gives objects that fit the schema: a message, or a combined message.  (What xsdata does is not modelled; this
   is what the theorems ask of it.) *)
Definition parser_fits (xs_parse : str -> res pyval) : Prop :=
  forall s v, xs_parse s = Ok v -> exists c, In c ("Ndm" :: root_classes) /\ conforms (TCls c) v.

(* header, metadata and some section of the data block are there, names of user defined parameters fit in a keyword, and no
   repeated section has a field that one before it lacks *)
Inductive convertible (u : env) : pyval -> Prop :=
| convertible_single c vars : In c ["Omm"; "Rdm"; "Opm"] -> let v := VObj c vars in
    object_at ["header"] v -> object_at ["body"; "segment"; "metadata"] v ->
    (exists n, n <> "user_defined_parameters" /\ object_at ["body"; "segment"; "data"; n] v) ->
    (forall l, attribute ["body"; "segment"; "data"; "maneuver_parameters"] v (VList l) -> no_new_fields l) ->
    (forall x, attribute ["body"; "segment"; "data"; "user_defined_parameters"] v x -> opt_user u x) -> convertible u v
| convertible_cdm vars : let v := VObj "Cdm" vars in
    object_at ["header"] v ->
    (exists n x, In n ["tca"; "miss_distance"; "relative_speed"] /\ attribute ["body"; "relative_metadata_data"; n] v x /\ is_set x) ->
    (forall l, attribute ["body"; "segment"] v (VList l) ->
       l <> [] /\ Forall (fun s => object_at ["metadata"] s /\ exists n, object_at ["data"; n] s) l /\ no_new_attributes l) -> convertible u v.
