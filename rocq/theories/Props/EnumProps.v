(** C122: the enumerations of the dialects. *)
From Coq Require Import String List NArith Bool Lia Sorted.
From Verif.Model Require Import Py EnumTable Enums.
From Verif.Spec Require Import EnumSpec.
From Verif.Proofs Require Import EnumP.
Import ListNotations.
Local Open Scope string_scope.
Local Open Scope N_scope.

(** C122.  The import runs without an exception, and afterwards, for every text e and number v, enums[e][v] is an entry exactly if the XML file defines it, with the
    name and the parameters of the file, and KeyError otherwise; a constant has a value exactly if the file gives it this value. *)
Theorem c122_import : exists s, import_enums hc_py_enums = Ok s /\
  (forall e v n ps, enum_at s e v = Ok (EnumEntry n ps) <-> defined hc_xml_enums e v n ps) /\
  (forall e v err, enum_at s e v = Err err -> err = KeyError /\ forall n ps, ~ defined hc_xml_enums e v n ps) /\
  (forall n v, dict_get String.eqb (nm_consts s) n = Some v <-> exists e ps, defined hc_xml_enums e v n ps) /\
  (forall e d, dict_get String.eqb (nm_enums s) e = Some d -> StronglySorted N.lt (map fst d) /\ exists x, In x hc_xml_enums /\ xn_name x = e).
Proof.
  destruct (checked hc_py_enums hc_xml_enums) as (s & E & A & B & C); [vm_compute; reflexivity|]. exists s. repeat (split; [assumption|]). split; [|split; assumption].
  intros e v err H. split.
  - unfold enum_at in H. destruct (dict_get _ _ _) as [d|]; [destruct (dict_get _ _ _)|]; congruence.
  - intros n ps D. apply A in D. congruence.
Qed.
Print Assumptions c122_import.

(** The minimal dialect: its file defines the same enumerations, and its module has the same names. *)
Theorem c122_minimal : import_enums minimal_py_enums = import_enums hc_py_enums /\ minimal_xml_enums = hc_xml_enums.
Proof. split; vm_compute; reflexivity. Qed.
Print Assumptions c122_minimal.

(** Hence a name stands for one value, a value of an enumeration has one name, and going from a name to its value and back gives the name. *)
Theorem c122_names : forall s, import_enums hc_py_enums = Ok s ->
  (forall e v n ps, enum_at s e v = Ok (EnumEntry n ps) -> dict_get String.eqb (nm_consts s) n = Some v) /\
  (forall e e' v v' n ps ps', enum_at s e v = Ok (EnumEntry n ps) -> enum_at s e' v' = Ok (EnumEntry n ps') -> v = v') /\
  (forall n v, dict_get String.eqb (nm_consts s) n = Some v -> exists e ps, enum_at s e v = Ok (EnumEntry n ps)).
Proof.
  intros s Hs. destruct c122_import as (s' & E & A & _ & B & _). assert (s' = s) by congruence. subst s'. clear E Hs.
  assert (F : forall e v n ps, enum_at s e v = Ok (EnumEntry n ps) -> dict_get String.eqb (nm_consts s) n = Some v). { intros e v n ps H. apply B. exists e, ps. apply A. exact H. }
  split; [exact F|]. split.
  - intros e e' v v' n ps ps' H H'. apply F in H. apply F in H'. congruence.
  - intros n v H. apply B in H. destruct H as (e & ps & D). exists e, ps. apply A. exact D.
Qed.
Print Assumptions c122_names.

(** The end of an enumeration is above all its values, and every parameter that the file describes is there. *)
Theorem c122_end : forall s x, import_enums hc_py_enums = Ok s -> In x hc_xml_enums ->
  exists z, enum_at s (xn_name x) z = Ok (EnumEntry (xn_name x ++ "_ENUM_END") []) /\ dict_get String.eqb (nm_consts s) (xn_name x ++ "_ENUM_END") = Some z /\
    (forall v y, In (v, y) (numbered 0 (xn_entries x)) -> v < z) /\ (exists v y, In (v, y) (numbered 0 (xn_entries x)) /\ z = v + 1) /\
    (forall y, In y (xn_entries x) -> incl (xe_params y) (parameters x y)).
Proof.
  intros s x Hs Hx. destruct c122_import as (s' & E & A & _ & B & _). assert (s' = s) by congruence. subst s'.
  exists (highest (xn_entries x) + 1). split; [apply A, def_end; exact Hx|]. split; [apply B; exists (xn_name x), []; apply def_end; exact Hx|].
  split; [intros v y H; apply numbered_le in H; unfold highest; lia|]. split; [|intros y Hy; apply (described_ok hc_xml_enums); [vm_compute; reflexivity|exact Hx|exact Hy]].
  clear - Hx. assert (T : forallb (fun x => existsb (fun p => N.eqb (highest (xn_entries x)) (fst p)) (numbered 0 (xn_entries x))) hc_xml_enums = true) by (vm_compute; reflexivity).
  rewrite forallb_forall in T. specialize (T x Hx). apply existsb_exists in T. destruct T as ([v y] & H & E). apply N.eqb_eq in E. cbn in E. exists v, y. split; [exact H|]. rewrite E. reflexivity.
Qed.
Print Assumptions c122_end.

Example c122_ex : exists s, import_enums hc_py_enums = Ok s /\ enum_at s "MAV_MODE_FLAG" 128 = Ok (EnumEntry "MAV_MODE_FLAG_SAFETY_ARMED" []) /\
  enum_at s "MAV_MODE_FLAG" 130 = Err KeyError /\ enum_at s "MAV_CMD_ACK" 1 = Ok (EnumEntry "MAV_CMD_ACK_OK" [1; 2; 3; 4; 5; 6; 7]) /\
  dict_get String.eqb (nm_consts s) "MAV_MODE_FLAG_ENUM_END" = Some 129.
Proof. eexists. split; [vm_compute; reflexivity|]. vm_compute. auto. Qed.
Example c122_ex_xml : exists x y, In x hc_xml_enums /\ xn_name x = "MAV_CMD_ACK"%string /\ In (2, y) (numbered 0 (xn_entries x)) /\ xe_value y = None /\ xe_name y = "MAV_CMD_ACK_ERR_FAIL"%string.
Proof.
  exists (match find (fun x => String.eqb (xn_name x) "MAV_CMD_ACK") hc_xml_enums with Some x => x | None => XEnum "" [] end).
  exists (XE "MAV_CMD_ACK_ERR_FAIL" None []). split; [refine (proj1 (find_some (fun x => String.eqb (xn_name x) "MAV_CMD_ACK") hc_xml_enums _)); vm_compute; reflexivity|].
  split; [vm_compute; reflexivity|]. split; [vm_compute; right; left; reflexivity|]. split; reflexivity.
Qed.
