(** C119: the generated dialect modules are what the XML definitions describe. *)
From Coq Require Import String Ascii List NArith ZArith Bool Lia.
From Verif.Model Require Import Py Dialect ProtocolMeta Struct Crc Mavlink MinimalTable XmlTable.
From Verif.Spec Require Import Bytes Header CrcSpec Frame XmlSpec.
From Verif.Proofs Require Import DialectP XmlP.
Import ListNotations.
Local Open Scope string_scope.
Local Open Scope list_scope.
Local Notation length := List.length.

(** The classes of HC_dialect.py, with all their attributes, are those of the messages of HC_dialect.xml, in its order. *)
Theorem c119_table : mavlink_classes = map x_class hc_xml.
Proof. exact hc_table. Qed.
Print Assumptions c119_table.

(** Those of minimal_dialect.py are those of minimal_dialect.xml, and its definitions are definitions of HC_dialect.xml. *)
Theorem c119_minimal : minimal_classes = map x_class minimal_xml /\ incl minimal_xml hc_xml.
Proof. split; [exact minimal_table|exact minimal_in_hc]. Qed.
Print Assumptions c119_minimal.

(** The ids known are those of the XML. *)
Theorem c119_known : forall i c, get_class i = Some c <-> exists x, In x hc_xml /\ xm_id x = i /\ c = x_class x.
Proof.
  intros i c. rewrite get_class_spec. unfold is_msg. rewrite hc_table, in_map_iff. split.
  - intros [(x & <- & H) I]. exists x. auto.
  - intros (x & H & <- & ->). split; [exists x; auto|reflexivity].
Qed.
Print Assumptions c119_known.

(** pack produces the frame that the XML describes. *)
Theorem c119_pack : forall x vs seq sys comp, In x hc_xml -> x_fits_all x vs -> in_byte seq -> in_byte sys -> in_byte comp ->
  message_pack (Msg (x_class x) vs) seq sys comp = Ok (x_frame x vs (Z.to_N seq) (Z.to_N sys) (Z.to_N comp)).
Proof. exact frame_x. Qed.
Print Assumptions c119_pack.

(** decode accepts exactly the frames that the XML describes, and reads the fields where it puts them. *)
Theorem c119_decode : forall text b, is_bytes b -> nth 0 b 0%N = 254%N -> forall d,
  decode text b = Ok d <->
  exists x, In x hc_xml /\ x_is_frame x b /\ d_class d = x_class x /\ d_msgId d = xm_id x /\ d_mlen d = nth 1 b 0%N /\
    d_seq d = nth 2 b 0%N /\ d_sys d = nth 3 b 0%N /\ d_comp d = nth 4 b 0%N /\ d_incompat d = 0%N /\ d_compat d = 0%N /\
    d_crc d = le_number (skipn (length b - 2) b) /\
    d_fields d = map (x_value text x (payload b)) (seq 0 (length (xm_fields x))).
Proof. exact decode_x. Qed.
Print Assumptions c119_decode.

(** HEARTBEAT: the only field of four bytes comes first; a renamed field changes the extra byte. *)
Definition x_hb : xmsg := nth 0 hc_xml (XM 0 "" []).
Definition x_hb_values : list fieldval := map (fun z => FOne (VInt z)) [2; 3; 81; 5; 4; 3]%Z.
Example c119_ex_heartbeat : In x_hb hc_xml /\ x_fits_all x_hb x_hb_values /\ x_extra x_hb = 50%N /\
  map (fun p => fst p) (x_wire x_hb) = [3; 0; 1; 2; 4; 5] /\
  x_frame x_hb x_hb_values 17 1 1 = [254; 9; 17; 1; 1; 0; 5; 0; 0; 0; 2; 3; 81; 4; 3; 251; 233]%N /\
  x_extra (XM 0 "HEARTBEAT" (XF "kind" "uint8_t" 0 :: tl (xm_fields x_hb))) <> 50%N.
Proof.
  split; [left; reflexivity|]. split; [|vm_compute; repeat split; discriminate].
  repeat (apply Forall2_cons; [eexists; split; [reflexivity|]; split; [discriminate|]; vm_compute; split; [discriminate|reflexivity]|]).
  constructor.
Qed.

(** STATUSTEXT: a byte and a text of 50 characters; a shorter text is filled with zeros and comes back as it was. *)
Definition x_st : xmsg := match find (fun x => N.eqb (xm_id x) 253) hc_xml with Some x => x | None => x_hb end.
Example c119_ex_text : In x_st hc_xml /\ x_fits_all x_st [FOne (VInt 6); FOne (VBytes [72; 105]%N)] /\
  x_payload x_st [FOne (VInt 6); FOne (VBytes [72; 105]%N)] = [6; 72; 105]%N ++ repeat 0%N 48 /\
  x_value (fun b => b) x_st ([6; 72; 105]%N ++ repeat 0%N 48) 1 = FText [72; 105]%N.
Proof.
  split; [refine (proj1 (find_some (fun x => N.eqb (xm_id x) 253) hc_xml _)); vm_compute; reflexivity|].
  split; [|vm_compute; auto].
  change x_st with (ltac:(let t := eval vm_compute in x_st in exact t)).
  apply Forall2_cons; [eexists; split; [reflexivity|]; split; [discriminate|]; vm_compute; split; [discriminate|reflexivity]|].
  apply Forall2_cons; [|constructor]. eexists. split; [reflexivity|]. repeat constructor.
Qed.

(** Negative numbers are sent in two's complement, arrays element by element. *)
Example c119_ex_bytes : x_bytes (XF "v" "int16_t" 3) (FMany [VInt (-2); VInt 258; VInt (-32768)]) = [254; 255; 2; 1; 0; 128]%N.
Proof. reflexivity. Qed.

(** A frame of HEARTBEAT and its fields. *)
Example c119_ex_decode :
  x_is_frame x_hb [254; 9; 17; 1; 1; 0; 5; 0; 0; 0; 2; 3; 81; 4; 3; 251; 233]%N /\
  map (x_value (fun b => b) x_hb [5; 0; 0; 0; 2; 3; 81; 4; 3]%N) (seq 0 6) = x_hb_values.
Proof.
  split; [|reflexivity]. exists 17%N, 1%N, 1%N, [5; 0; 0; 0; 2; 3; 81; 4; 3]%N, 251%N, 233%N. split; [reflexivity|]. vm_compute. reflexivity.
Qed.
