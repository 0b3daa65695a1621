(** The file of a saved model: what is written is what is read, and a file that was cut short is noticed (C109). *)
From Coq Require Import String Ascii List ZArith NArith QArith Bool Arith Lia Sorting.Permutation Sorting.Sorted.
From Verif.Model Require Import Py Float Struct ShipLog StatModels JsonText.
From Verif.Model Require Cmd.
From Verif.Spec Require Import Bytes Bits RealOps Stats JsonSpec.
From Verif.Proofs Require Import JsonP JsonQ JsonR StatP BufModelP SaveP StatTop Base.
From Verif.Props Require Import MavlinkProps StatProps.
Import ListNotations.
Local Close Scope Q_scope.

(** C109.  A document that was written is read back as it was. *)
Theorem c109_round_trip : forall (A : Type) (show_float : A -> text) (read_float : text -> A) d,
  writable show_float read_float d -> loads read_float (dumps show_float d) = JOk d.
Proof. exact @read_back. Qed.
Print Assumptions c109_round_trip.

(** A text that is the beginning of an array, an object or a string, but not all of it, is refused; nothing is ever read from it. *)
Theorem c109_cut_short : forall (A : Type) (show_float : A -> text) (read_float : text -> A) d p,
  writable show_float read_float d -> match d with TStr _ | TArr _ | TObj _ => True | _ => False end ->
  cut_short p (dumps show_float d) -> loads read_float p = JBad.
Proof. exact @cut_is_bad. Qed.
Print Assumptions c109_cut_short.

(** Reading always ends: with a document, or with JSONDecodeError. *)
Theorem c109_total : forall (A : Type) (read_float : text -> A) t, loads read_float t = JBad \/ exists d, loads read_float t = JOk d.
Proof.
  intros A rd t. pose proof (loads_total rd t) as H. destruct (loads rd t) as [d| |]; [right; eauto|now left|congruence].
Qed.
Print Assumptions c109_total.

(** The text holds printable ASCII characters and line feeds, whatever the strings of the document hold. *)
Theorem c109_ascii : forall (A : Type) (show_float : A -> text) (read_float : text -> A) d c,
  writable show_float read_float d -> In c (dumps show_float d) -> (c = 10 \/ 32 <= c <= 126)%N.
Proof. intros A sh rd d c W I. pose proof (dump_plain sh rd d W 0) as F. rewrite Forall_forall in F. exact (F c I). Qed.
Print Assumptions c109_ascii.

(** In a string a backslash comes before one of nine characters; anything else is refused, wherever it stands. *)
Theorem c109_escape : forall (A : Type) (read_float : text -> A) p e t, Forall (fun c => 32 <= c /\ c <> 34 /\ c <> 92)%N p ->
  (In e [34; 92; 47; 98; 102; 110; 114; 116]%N ->
   loads read_float (34 :: p ++ [92; e; 34])%N =
     JOk (TStr (p ++ [if (e =? 98) then 8 else if (e =? 102) then 12 else if (e =? 110) then 10 else if (e =? 114) then 13 else if (e =? 116) then 9 else e])%N)) /\
  (~ In e [34; 92; 47; 98; 102; 110; 114; 116; 117]%N -> loads read_float (34 :: p ++ 92 :: e :: t)%N = JBad).
Proof.
  intros A read_float p e t Hp.
  assert (V : forall r, loads read_float (34%N :: r) = jbind (jbind (scan r) (fun x => JOk (TStr (fst x), snd x))) (fun x => match skip_ws (snd x) with [] => JOk (fst x) | _ => JBad end)).
  { intros r. unfold loads. cbn [skip_ws]. replace (is_ws 34) with false by reflexivity. replace (2 * List.length (34%N :: r) + 2)%nat with (S (2 * List.length (34%N :: r) + 1)) by lia. reflexivity. }
  assert (P : forall r, scan (p ++ r) = fold_right put (scan r) p).
  { clear - Hp. intros r. induction Hp as [|c p (C1 & C2 & C3) _ IH]; [reflexivity|]. cbn [app fold_right]. rewrite <- IH. cbn [scan].
    destruct (N.eqb_spec c 34), (N.ltb_spec c 32), (N.eqb_spec c 92); try contradiction; try lia; reflexivity. }
  rewrite !V, !P. split.
  - intros He. assert (Q : forall k, fold_right put (JOk ([k], [])) p = JOk ((p ++ [k])%list, [])).
    { clear. intros k. induction p as [|c p IH]; [reflexivity|]. cbn [fold_right app]. now rewrite IH. }
    destruct He as [<-|[<-|[<-|[<-|[<-|[<-|[<-|[<-|[]]]]]]]]]; cbn [scan N.eqb N.ltb N.compare Pos.eqb Pos.compare Pos.compare_cont]; cbn; rewrite Q; reflexivity.
  - intros He. assert (Q : fold_right put JBad p = JBad) by (clear; induction p as [|c p IH]; [reflexivity|]; cbn [fold_right]; now rewrite IH).
    assert (S : scan (92 :: e :: t)%N = JBad).
    { cbn [scan]. change (92 =? 34)%N with false. change (92 <? 32)%N with false. change (92 =? 92)%N with true. cbv iota.
      destruct (N.eqb_spec e 117); [exfalso; apply He; subst; cbn; tauto|]. unfold unescape.
      destruct (N.eqb_spec e 34); [exfalso; apply He; subst; cbn; tauto|]. destruct (N.eqb_spec e 92); [exfalso; apply He; subst; cbn; tauto|].
      destruct (N.eqb_spec e 47); [exfalso; apply He; subst; cbn; tauto|]. destruct (N.eqb_spec e 98); [exfalso; apply He; subst; cbn; tauto|].
      destruct (N.eqb_spec e 102); [exfalso; apply He; subst; cbn; tauto|]. destruct (N.eqb_spec e 110); [exfalso; apply He; subst; cbn; tauto|].
      destruct (N.eqb_spec e 114); [exfalso; apply He; subst; cbn; tauto|]. destruct (N.eqb_spec e 116); [exfalso; apply He; subst; cbn; tauto|]. reflexivity. }
    rewrite S, Q. reflexivity.
Qed.
Print Assumptions c109_escape.

(** A number on its own that is cut short is another number. *)
Theorem c109_number_refuted : exists d : jdoc unit, writable (fun _ => []) (fun _ => tt) d /\
  exists p d', cut_short p (dumps (fun _ => []) d) /\ loads (fun _ => tt) p = JOk d' /\ d' <> d.
Proof.
  exists (TInt 12). split; [constructor|]. exists [49%N], (TInt 1). split; [exists [50%N]; split; [reflexivity|discriminate]|]. split; [reflexivity|discriminate].
Qed.
Print Assumptions c109_number_refuted.

(** Saving a model over the file [old], with floats that are written so that they read back: a process that stops before the file is opened
    leaves [old]; one that stops after [k] characters leaves a file that cannot be loaded, unless [k] characters are all of them, and then what is
    loaded is what was saved. *)
Theorem c109_file : forall (FO : fops) pack erf f32_of show_float read_float w os m m1 doc,
  (forall x, float_text (show_float x) /\ read_float (show_float x) = x) ->
  window_ok w -> reachable FO pack erf w os m -> save FO m = Ok (m1, doc) ->
  (forall nm f p, bm_get FO m nm = Some f -> In (VF32 p) (fm_samples FO f) -> f32_of (f32val FO p) = p) ->
  forall old s, load_file FO f32_of read_float (save_file FO show_float m old s) =
    match s with
    | BeforeOpen => load_file FO f32_of read_float old
    | Written k => if k <? length (dumps show_float (doc_of FO doc)) then Undecodable FO else Loaded FO (load FO doc)
    end.
Proof.
  intros FO pack erf f32_of sh rd w os m m1 doc Fl W R Sv F32. destruct (reach_inv FO pack erf w os m W R) as ((_ & ND & _) & _).
  refine (proj2 (saved_file FO f32_of sh rd Fl m m1 doc ND Sv _)). intros k f p I Ip. apply (F32 k f p); [|exact Ip].
  apply (dict_in_get _ streqb_spec); assumption.
Qed.
Print Assumptions c109_file.

(** Together with C30: after a save that ended, loading the file gives a model with the same fields, samples and predictions. *)
Theorem c109_save_load : forall (FO : fops) pack erf f32_of show_float read_float w h os m1 doc,
  (forall x, float_text (show_float x) /\ read_float (show_float x) = x) ->
  window_ok w -> Forall2 outcome h os -> Forall written_event h ->
  let m := bm_run FO pack erf (bm_init FO [] w) h in
  save FO m = Ok (m1, doc) ->
  (forall nm f p, bm_get FO m nm = Some f -> In (VF32 p) (fm_samples FO f) -> f32_of (f32val FO p) = p) ->
  forall old k, length (dumps show_float (doc_of FO doc)) <= k ->
  exists m2, load_file FO f32_of read_float (save_file FO show_float m old (Written k)) = Loaded FO (Ok m2) /\
    bm_window FO m2 = bm_window FO m /\ bm_size FO m2 = bm_size FO m /\ bm_descr FO m2 = bm_descr FO m /\
    (forall nm, match bm_get FO m nm, bm_get FO m2 nm with
                | None, None => True
                | Some f, Some f' => fm_name FO f' = fm_name FO f /\ fm_type FO f' = fm_type FO f /\ fm_window FO f' = fm_window FO f /\
                                     fm_samples FO f' = fm_samples FO f
                | _, _ => False
                end) /\
    forall a s, results_of (predict FO erf m2 a s) = results_of (predict FO erf m a s).
Proof.
  intros FO pack erf f32_of sh rd w h os m1 doc Fl W O We m Sv F32 old k L.
  destruct (c30_save_load FO pack erf w h os m1 doc W O We Sv) as (m2 & E & E1 & E2 & E3 & _ & _ & _ & E4 & E5). exists m2.
  rewrite (c109_file FO pack erf f32_of sh rd w os m m1 doc Fl W (ex_intro _ h (conj O eq_refl)) Sv F32 old (Written k)).
  destruct (Nat.ltb_spec k (length (dumps sh (doc_of FO doc)))); [lia|]. rewrite E. auto 10.
Qed.
Print Assumptions c109_save_load.

(** A save that raises does so before the file is opened. *)
Theorem c109_failed_save : forall (FO : fops) show_float m e old s, save FO m = Err e -> save_file FO show_float m old s = old.
Proof. exact failed_save. Qed.
Print Assumptions c109_failed_save.

(** Saving is not atomic: a process that stops in between leaves neither the old model nor the new one. *)
Theorem c109_atomic_refuted : exists (m : buffer_model Qops) old m0 s,
  load_file Qops (fun _ => 0%N) read_q old = Loaded Qops (Ok m0) /\
  load_file Qops (fun _ => 0%N) read_q (save_file Qops show_q m old s) = Undecodable Qops.
Proof.
  exists (bm_init Qops [] None), (save_file Qops show_q (bm_init Qops [] (Some 4%Z)) Absent (Written 1000)), (bm_init Qops [] (Some 4%Z)), (Written 0).
  split; reflexivity.
Qed.
Print Assumptions c109_atomic_refuted.

(** Floats can be written so that they read back. *)
Example c109_ex_floats : forall x : Q, float_text (show_q x) /\ read_q (show_q x) = x.
Proof. exact show_q_ok. Qed.

Definition sample_doc : jdoc text :=
  TObj [(ascii "a", TArr [TInt (-12); TFloat (ascii "1.5e-07"); TObj []; TArr []]); ([233; 128512; 10]%N, TStr [1; 34]%N); (ascii "", TBool true)].
Definition sample_text : string := "{
    ""a"": [
        -12,
        1.5e-07,
        {},
        []
    ],
    ""\u00e9\ud83d\ude00\n"": ""\u0001\"""",
    """": true
}".
Example c109_ex_text : dumps (fun x => x) sample_doc = ascii sample_text /\ loads (fun x => x) (ascii sample_text) = JOk sample_doc /\
  loads (fun x => x) (ascii "{""a"": [1, 2.50E+3 ],""b"" :null, ""a"":-0}") = JOk (TObj [(ascii "a", TInt 0); (ascii "b", TNull)]) /\
  loads (fun x => x) (ascii "[1,]") = JBad /\ loads (fun x => x) (ascii "[01]") = JBad /\ loads (fun x => x) (ascii "[] x") = JBad.
Proof. repeat split; reflexivity. Qed.
Example c109_ex_writable : writable (fun x => x) (fun x => x) sample_doc.
Proof.
  apply wObj.
  - repeat constructor; cbn; intuition discriminate.
  - repeat constructor; cbn; unfold scalar_code; lia.
  - constructor; [|constructor; [|constructor; [|constructor]]]; cbn [snd]; [apply wArr|apply wStr|apply wBool].
    + constructor; [apply wInt|constructor; [apply wFloat; [|reflexivity]|constructor; [|constructor; [|constructor]]]].
      * left. exists [], [49%N], (ascii ".5"), (ascii "e-07"). repeat split; [now left| |right|right|left; discriminate].
        -- right. split; [split; [discriminate|repeat constructor; unfold digit_code; lia]|discriminate].
        -- exists [53%N]. repeat split; [discriminate|]. repeat constructor; unfold digit_code; lia.
        -- exists 101%N, [45%N], [48; 55]%N. repeat split; [now left|tauto|discriminate|]. repeat constructor; unfold digit_code; lia.
      * apply wObj; constructor.
      * apply wArr; constructor.
    + repeat constructor; unfold scalar_code; lia.
Qed.

(** A model with one message, saved and loaded; the file cut in half. *)
Definition filed (s : stop) : bool * option Z * list pyval :=
  let m := bm_run Qops no_pack (fun x => x) (bm_init Qops [] (Some 4%Z)) [VAdd (BBytes hb) [(0, 0%N)]] in
  match load_file Qops (fun _ => 0%N) read_q (save_file Qops show_q m Absent s) with
  | Loaded _ (Ok m2) => (true, Some (bm_size Qops m2), match bm_get Qops m2 "HEARTBEAT_custom_mode" with Some f => fm_samples Qops f | None => [] end)
  | Loaded _ (Err _) => (true, None, [])
  | Undecodable _ => (false, None, [])
  | NoFile _ => (false, Some 0%Z, [])
  end.
Example c109_ex_file : filed (Written 5000) = (true, Some 1%Z, [VInt 5]) /\ filed (Written 1000) = (false, None, []) /\ filed BeforeOpen = (false, Some 0%Z, []).
Proof. vm_compute. repeat split; reflexivity. Qed.
Example c109_ex_escape : loads (fun _ => tt) [34; 97; 92; 110; 34]%N = JOk (TStr [97; 10]%N) /\ loads (fun _ => tt) [34; 97; 92; 113; 34]%N = JBad.
Proof. split; vm_compute; reflexivity. Qed.
