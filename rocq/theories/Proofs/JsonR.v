(** The file of a saved model (C109). *)
From Coq Require Import String Ascii List ZArith NArith Bool Arith Lia Sorting.Permutation FinFun.
From Verif.Model Require Import Py Float Struct ShipLog StatModels JsonText.
From Verif.Model Require Cmd.
From Verif.Spec Require Import JsonSpec.
From Verif.Proofs Require Import JsonP JsonQ SaveP.
From Verif.Proofs Require CmdP.
Import ListNotations.
Local Open Scope list_scope.

(** Strings. *)
Lemma uncodes_ascii s : uncodes (ascii s) = s.
Proof.
  unfold uncodes. induction s as [|c s IH]; [reflexivity|]. cbn [ascii map string_of_list_ascii]. rewrite ascii_N_embedding. now rewrite IH.
Qed.
Lemma ascii_inj : Injective ascii.
Proof. intros a b H. now rewrite <- (uncodes_ascii a), <- (uncodes_ascii b), H. Qed.
Lemma ascii_ok s : text_ok (ascii s).
Proof.
  induction s as [|c s IH]; [constructor|]. constructor; [|exact IH]. left. pose proof (N_ascii_bounded c). lia.
Qed.

Section R.
Variable FO : fops.
Variable f32_of : F FO -> N.
Variable show_float : F FO -> text.
Variable read_float : text -> F FO.
Notation J := (json FO).
Notation writable := (writable show_float read_float).
Notation doc_of := (doc_of FO).
Notation undoc := (undoc FO f32_of).
Hypothesis floats : forall x, float_text (show_float x) /\ read_float (show_float x) = x.

Lemma obj_writable (l : list (string * J)) : NoDup (map fst l) -> Forall (fun kv => writable (doc_of (snd kv))) l -> writable (doc_of (JObj FO (sort_keys l))).
Proof using.
  clear floats. intros ND H. pose proof (sort_keys_perm l) as P. cbn [JsonText.doc_of]. apply wObj; rewrite map_map; cbn [fst snd].
  - rewrite <- (map_map fst ascii). apply Injective_map_NoDup; [exact ascii_inj|]. eapply Permutation_NoDup; [apply Permutation_map, Permutation_sym; exact P|exact ND].
  - apply Forall_forall. intros x I. apply in_map_iff in I. destruct I as (kv & <- & _). apply ascii_ok.
  - apply Forall_map. eapply Permutation_Forall; [apply Permutation_sym; exact P|exact H].
Qed.
Definition numeric (v : pyval) : Prop := match v with VBytes _ => False | _ => True end.
Definition kept (v : pyval) : Prop := match v with VInt _ => True | VF32 p => f32_of (f32val FO p) = p | VBytes _ => False end.
Lemma sample_writable v : writable (doc_of (JSample FO v)).
Proof using floats. destruct v as [z|p|b]; cbn; [apply wInt|apply wFloat; apply floats|apply wStr, ascii_ok]. Qed.
Lemma window_writable w : writable (doc_of (json_window FO w)).
Proof using. clear. destruct w; constructor. Qed.
Lemma field_writable f : writable (doc_of (json_field FO f)).
Proof using floats.
  unfold json_field. apply obj_writable.
  - repeat constructor; cbn; intuition discriminate.
  - repeat match goal with |- Forall _ (_ :: _) => constructor | |- Forall _ [] => constructor end; cbn [snd]; try apply window_writable;
      try (cbn [JsonText.doc_of]; constructor; fail); try (cbn [JsonText.doc_of]; apply wStr, ascii_ok); try (cbn [JsonText.doc_of]; apply wFloat; apply floats).
    cbn [JsonText.doc_of]. apply wArr. rewrite map_map. apply Forall_map, Forall_forall. intros v _. apply sample_writable.
Qed.
Lemma descr_writable it : writable (doc_of (json_descr FO it)).
Proof using.
  clear. destruct it as [b|s|n t]; cbn; [apply wStr, ascii_ok|apply wStr, ascii_ok|]. apply wArr. repeat constructor; apply ascii_ok.
Qed.

(** The document comes back. *)
Definition back (kv : string * J) : Prop :=
  if String.eqb (fst kv) "samples" then (exists vs, snd kv = JArr FO (map (JSample FO) vs) /\ Forall kept vs) \/ (exists l, snd kv = JObj FO l /\ undoc (doc_of (snd kv)) = snd kv)
  else undoc (doc_of (snd kv)) = snd kv.
Lemma samples_undoc vs : Forall kept vs -> map (undoc_sample FO f32_of) (map doc_of (map (JSample FO) vs)) = map (JSample FO) vs.
Proof using.
  clear. induction 1 as [|v vs H _ IH]; [reflexivity|]. cbn [map]. rewrite IH. f_equal. destruct v as [z|p|b]; cbn in *; [reflexivity|now rewrite H|contradiction].
Qed.
Lemma key_samples k : Cmd.text_eqb (ascii k) (ascii "samples") = String.eqb k "samples".
Proof using.
  clear. destruct (String.eqb_spec k "samples") as [->|N]; [reflexivity|]. destruct (Cmd.text_eqb (ascii k) (ascii "samples")) eqn:E; [|reflexivity].
  apply CmdP.text_eqb_spec in E. apply ascii_inj in E. congruence.
Qed.
Lemma obj_undoc (l : list (string * J)) : Forall back l -> undoc (doc_of (JObj FO (sort_keys l))) = JObj FO (sort_keys l).
Proof using.
  clear floats. intro H. assert (H' : Forall back (sort_keys l)) by (eapply Permutation_Forall; [apply Permutation_sym, sort_keys_perm|exact H]). clear H.
  generalize dependent (sort_keys l). clear l. intros l H. cbn [JsonText.doc_of JsonText.undoc]. f_equal. rewrite map_map.
  transitivity (map (fun x : string * J => x) l); [|apply map_id].
  apply map_ext_in. intros [k v] I. rewrite Forall_forall in H. specialize (H _ I). unfold back in H. cbn [fst snd] in *. rewrite uncodes_ascii, key_samples. f_equal.
  destruct (String.eqb k "samples"); [|exact H]. destruct H as [(vs & -> & K) | (l' & -> & E)].
  - cbn [JsonText.doc_of undoc_samples]. f_equal. now apply samples_undoc.
  - cbn [JsonText.doc_of undoc_samples]. cbn [JsonText.doc_of] in E. exact E.
Qed.
Lemma window_undoc w : undoc (doc_of (json_window FO w)) = json_window FO w.
Proof using. clear. destruct w; reflexivity. Qed.
Lemma field_undoc f : Forall kept (fm_samples FO f) -> undoc (doc_of (json_field FO f)) = json_field FO f.
Proof using.
  clear floats show_float read_float. intro K. unfold json_field. apply obj_undoc.
  repeat match goal with |- Forall _ (_ :: _) => constructor | |- Forall _ [] => constructor end; unfold back; cbn [fst snd]; try apply window_undoc;
    try (cbn; rewrite ?uncodes_ascii; reflexivity).
  change (String.eqb "samples" "samples") with true. cbv iota. left. eauto.
Qed.
Lemma descr_undoc it : undoc (doc_of (json_descr FO it)) = json_descr FO it.
Proof using. clear. destruct it as [b|s|n t]; cbn; now rewrite !uncodes_ascii. Qed.

(** What save writes. *)
Lemma update_facts f f' : fm_update FO f = Ok f' -> fm_samples FO f' = fm_samples FO f /\ Forall numeric (fm_samples FO f).
Proof using.
  clear. unfold fm_update. destruct (fm_samples FO f) as [|v l] eqn:E.
  - intro H. assert (f' = f) by congruence. subst. rewrite E. auto.
  - unfold norm_fit. destruct (map_res (sample_num FO) (v :: l)) as [xs|] eqn:M; [|discriminate]. cbn [bind]. intro H.
    assert (N : forall l xs, map_res (sample_num FO) l = Ok xs -> Forall numeric l).
    { clear. induction l as [|v l IH]; intros xs H; [constructor|]. cbn [map_res] in H. destruct (sample_num FO v) as [x|] eqn:S; [|discriminate].
      cbn [bind] in H. destruct (map_res (sample_num FO) l) as [xs'|] eqn:M; [|discriminate]. constructor; [|now apply (IH xs')].
      destruct v; [exact I|exact I|discriminate]. }
    split; [|exact (N _ _ M)].
    apply (f_equal (fun r => match r with Ok g => fm_samples FO g | Err _ => [] end)) in H. cbn [fm_samples] in H. symmetry. exact H.
Qed.
Lemma update_all_facts l : forall l1, update_all FO l = Ok l1 ->
  map fst l1 = map fst l /\ Forall (fun kf => exists f, In (fst kf, f) l /\ fm_samples FO (snd kf) = fm_samples FO f /\ Forall numeric (fm_samples FO f)) l1.
Proof using.
  clear. unfold update_all. induction l as [|[k f] l IH]; intros l1 H; cbn [map_res] in H.
  - assert (l1 = []) by congruence. subst. split; [reflexivity|constructor].
  - cbn [fst snd] in H. destruct (fm_update FO f) as [f'|] eqn:U; [|discriminate]. cbn [bind] in H.
    destruct (map_res _ l) as [l2|] eqn:M; [|discriminate]. cbn [bind] in H. assert (l1 = (k, f') :: l2) by congruence. subst l1. clear H.
    destruct (IH l2 eq_refl) as [K D]. destruct (update_facts _ _ U) as [S N]. split; [cbn; congruence|]. constructor.
    + exists f. cbn. auto.
    + eapply Forall_impl; [|exact D]. cbn. intros kf (g & I & X). exists g. auto.
Qed.

Lemma save_document m m1 doc : NoDup (map fst (bm_models FO m)) -> save FO m = Ok (m1, doc) ->
  writable (doc_of doc) /\ (exists l, doc = JObj FO l) /\
  ((forall k f p, In (k, f) (bm_models FO m) -> In (VF32 p) (fm_samples FO f) -> f32_of (f32val FO p) = p) -> undoc (doc_of doc) = doc).
Proof using floats.
  intros ND Sv. unfold save in Sv. destruct (update_all FO (bm_models FO m)) as [l1|] eqn:U; [|discriminate]. cbn [bind] in Sv.
  pose proof (f_equal (fun r => match r with Ok p => snd p | Err _ => JNull FO end) Sv) as E. cbn [snd] in E. clear Sv. subst doc.
  destruct (update_all_facts _ _ U) as [K D]. split; [|split].
  - apply obj_writable.
    + repeat constructor; cbn; intuition discriminate.
    + constructor; [|constructor; [|constructor; [|constructor; [|constructor]]]]; cbn [snd].
      * apply obj_writable; [rewrite map_map; cbn [fst]; change (NoDup (map fst l1)); now rewrite K|]. apply Forall_map, Forall_forall. intros kf _. apply field_writable.
      * destruct (bm_descr FO m); [|constructor]. cbn [JsonText.doc_of]. apply wArr. rewrite map_map. apply Forall_map, Forall_forall. intros it _. apply descr_writable.
      * apply window_writable.
      * constructor.
  - eauto.
  - intro F32. apply obj_undoc.
    constructor; [|constructor; [|constructor; [|constructor; [|constructor]]]]; unfold back; cbn [fst snd].
    + change (String.eqb "field_models" "samples") with false. cbv iota. apply obj_undoc. apply Forall_map, Forall_forall. intros kf I.
      unfold back. cbn [fst snd]. rewrite Forall_forall in D. destruct (D _ I) as (f & If & S & N).
      assert (Kp : Forall kept (fm_samples FO (snd kf))).
      { rewrite S. apply Forall_forall. intros v Iv. rewrite Forall_forall in N. specialize (N v Iv). destruct v as [z|p|b]; [exact Logic.I| |contradiction].
        exact (F32 _ _ _ If Iv). }
      destruct (String.eqb (fst kf) "samples"); [right; eexists; split; [reflexivity|]|]; now apply field_undoc.
    + change (String.eqb "buffer_description" "samples") with false. cbv iota. destruct (bm_descr FO m) as [d|]; [|reflexivity].
      cbn [JsonText.doc_of JsonText.undoc]. f_equal. rewrite !map_map. apply map_ext. apply descr_undoc.
    + change (String.eqb "window_size" "samples") with false. cbv iota. apply window_undoc.
    + reflexivity.
Qed.

Notation save_file := (save_file FO show_float).
Notation load_file := (load_file FO f32_of read_float).
Lemma saved_file m m1 doc : NoDup (map fst (bm_models FO m)) -> save FO m = Ok (m1, doc) ->
  (forall k f p, In (k, f) (bm_models FO m) -> In (VF32 p) (fm_samples FO f) -> f32_of (f32val FO p) = p) ->
  loads read_float (dumps show_float (doc_of doc)) = JOk (doc_of doc) /\ forall old s,
    load_file (save_file m old s) =
    match s with
    | BeforeOpen => load_file old
    | Written k => if (k <? List.length (dumps show_float (doc_of doc)))%nat then Undecodable FO else Loaded FO (load FO doc)
    end.
Proof using floats.
  intros ND Sv F32. destruct (save_document m m1 doc ND Sv) as (W & (l & ->) & Un).
  split; [now apply read_back|]. intros old s. unfold JsonText.save_file. rewrite Sv. destruct s as [|k]; [reflexivity|]. unfold JsonText.load_file.
  destruct (Nat.ltb_spec k (List.length (dumps show_float (doc_of (JObj FO l))))) as [L|L].
  - rewrite (cut_is_bad show_float read_float (doc_of (JObj FO l))); [reflexivity|exact W|exact Logic.I|].
    exists (skipn k (dumps show_float (doc_of (JObj FO l)))). split; [symmetry; apply firstn_skipn|].
    intro E. apply (f_equal (@List.length N)) in E. rewrite skipn_length in E. cbn [List.length] in E. lia.
  - rewrite firstn_all2 by exact L. rewrite (read_back show_float read_float _ W). now rewrite (Un F32).
Qed.
Lemma failed_save m e old s : save FO m = Err e -> save_file m old s = old.
Proof using. clear. intro H. unfold JsonText.save_file. now rewrite H. Qed.
End R.

(** The characters of the text. *)
Definition plain_code (c : N) : Prop := (c = 10 \/ 32 <= c <= 126)%N.
Lemma hexd_plain n : plain_code (hexd (n mod 16)).
Proof. pose proof (N.mod_lt n 16 ltac:(lia)) as H. unfold plain_code, hexd. destruct (N.ltb_spec (n mod 16) 10); lia. Qed.
Lemma hex4_plain n : Forall plain_code (hex4 n).
Proof. unfold hex4. repeat (constructor; [apply hexd_plain|]). constructor. Qed.
Lemma plain_lits l : forallb (fun c => (c =? 10) || ((32 <=? c) && (c <=? 126)))%N l = true -> Forall plain_code l.
Proof.
  intro H. apply Forall_forall. intros c I. rewrite forallb_forall in H. specialize (H c I). unfold plain_code.
  apply orb_true_iff in H. destruct H as [H|H]; [apply N.eqb_eq in H; lia|]. apply andb_true_iff in H. rewrite !N.leb_le in H. lia.
Qed.
Lemma quote_char_plain n : Forall plain_code (quote_char n).
Proof.
  unfold quote_char.
  destruct (n =? 34)%N; [apply plain_lits; reflexivity|]. destruct (n =? 92)%N; [apply plain_lits; reflexivity|].
  destruct (n =? 10)%N; [apply plain_lits; reflexivity|]. destruct (n =? 13)%N; [apply plain_lits; reflexivity|].
  destruct (n =? 9)%N; [apply plain_lits; reflexivity|]. destruct (n =? 12)%N; [apply plain_lits; reflexivity|].
  destruct (n =? 8)%N; [apply plain_lits; reflexivity|]. destruct (N.leb_spec 32 n), (N.leb_spec n 126); cbn [andb];
    try (constructor; [unfold plain_code; lia|constructor]);
    (unfold u_escape; destruct (n <? 65536)%N; [|apply Forall_app; split]; apply (Forall_app _ [92; 117]%N (hex4 _)); (split; [apply plain_lits; reflexivity|apply hex4_plain])).
Qed.
Lemma quote_plain s : Forall plain_code (quote s).
Proof.
  unfold quote. apply (Forall_app _ [34%N]). split; [apply plain_lits; reflexivity|]. apply Forall_app. split; [|apply plain_lits; reflexivity].
  induction s as [|n s IH]; [constructor|]. cbn [flat_map]. apply Forall_app. split; [apply quote_char_plain|exact IH].
Qed.
Lemma newline_plain lvl : Forall plain_code (newline lvl).
Proof. constructor; [now left|]. apply Forall_forall. intros x I. apply repeat_spec in I. subst. right. lia. Qed.
Lemma ncode_plain t : Forall ncode t -> Forall plain_code t.
Proof. apply Forall_impl. unfold ncode, digit_code, plain_code. lia. Qed.
Section Plain.
Context {A : Type}.
Variable show_float : A -> text.
Variable read_float : text -> A.
Notation dump := (dump show_float).
Lemma dump_plain d : writable show_float read_float d -> forall lvl, Forall plain_code (dump lvl d).
Proof using.
  induction d as [|b|z|x|s|l IH|l IH] using jdoc_rect'; intros W lvl.
  - apply plain_lits; reflexivity.
  - destruct b; apply plain_lits; reflexivity.
  - destruct (show_int_number z) as (s & w & E & P). cbn [JsonText.dump]. rewrite E. now apply ncode_plain, plain_number_ncode.
  - inversion W as [| | |? Ft Rd| | |]; subst. cbn [JsonText.dump]. destruct Ft as [(s & w & f & e & E & S & Wh & Hf & He & _) | [E | [E | E]]]; rewrite E;
      [apply ncode_plain, plain_number_ncode; repeat split; assumption|apply plain_lits; reflexivity ..].
  - cbn [JsonText.dump]. apply quote_plain.
  - destruct l as [|d l]; [apply plain_lits; reflexivity|]. inversion W as [| | | | |? F|]; subst. rewrite dump_arr.
    apply (Forall_app _ [91%N]). split; [apply plain_lits; reflexivity|]. apply Forall_app. split; [apply newline_plain|]. clear W.
    assert (NE : d :: l <> []) by discriminate. generalize dependent (d :: l). clear d l. intros l IH F _.
    induction l as [|d l IHl]; [constructor|]. inversion IH as [|? ? I1 I2]; inversion F as [|? ? F1 F2]; subst. cbn [ebody]. apply Forall_app. split; [auto|].
    destruct l as [|d' l]; [apply Forall_app; split; [apply newline_plain|apply plain_lits; reflexivity]|].
    apply (Forall_app _ [44%N]). split; [apply plain_lits; reflexivity|]. apply Forall_app. split; [apply newline_plain|auto].
  - destruct l as [|[k d] l]; [apply plain_lits; reflexivity|]. inversion W as [| | | | | |? _ _ F]; subst. rewrite dump_obj.
    apply (Forall_app _ [123%N]). split; [apply plain_lits; reflexivity|]. apply Forall_app. split; [apply newline_plain|]. clear W.
    generalize dependent ((k, d) :: l). clear k d l. intros l IH F.
    induction l as [|[k d] l IHl]; [constructor|]. cbn [map snd] in IH, F. inversion IH as [|? ? I1 I2]; inversion F as [|? ? F1 F2]; subst. cbn [mbody].
    apply Forall_app. split; [apply quote_plain|]. apply (Forall_app _ [58; 32]%N). split; [apply plain_lits; reflexivity|]. apply Forall_app. split; [auto|].
    destruct l as [|[k' d'] l]; [apply Forall_app; split; [apply newline_plain|apply plain_lits; reflexivity]|].
    apply (Forall_app _ [44%N]). split; [apply plain_lits; reflexivity|]. apply Forall_app. split; [apply newline_plain|auto].
Qed.
End Plain.

(** A way to write rational numbers, for the examples: numerator.denominator. *)
Definition show_q (x : QArith_base.Q) : text := Cmd.show_int (QArith_base.Qnum x) ++ [46%N] ++ Cmd.show_digits (N.to_uint (Npos (QArith_base.Qden x))).
Fixpoint before_dot (t : text) : text := match t with c :: r => if (c =? 46)%N then [] else c :: before_dot r | [] => [] end.
Fixpoint after_dot (t : text) : text := match t with c :: r => if (c =? 46)%N then r else after_dot r | [] => [] end.
Definition int_of (t : text) : Z := match py_int t with Ok z => z | Err _ => 0%Z end.
Definition read_q (t : text) : QArith_base.Q := QArith_base.Qmake (int_of (before_dot t)) (Z.to_pos (int_of (after_dot t))).
Lemma dot_split a b : Forall (fun c => c <> 46%N) a -> before_dot (a ++ 46%N :: b) = a /\ after_dot (a ++ 46%N :: b) = b.
Proof.
  induction 1 as [|c a H _ [IH1 IH2]]; [split; reflexivity|]. cbn. destruct (N.eqb_spec c 46); [congruence|]. now rewrite IH1, IH2.
Qed.
Lemma show_q_ok x : float_text (show_q x) /\ read_q (show_q x) = x.
Proof.
  destruct x as [n d]. unfold show_q. cbn [QArith_base.Qnum QArith_base.Qden]. destruct (show_int_number n) as (s & w & E & (S & W & _)).
  rewrite !app_nil_r in E. split.
  - left. exists s, w, (46%N :: Cmd.show_digits (N.to_uint (Npos d))), []. rewrite E, !app_nil_r, <- app_assoc. repeat split; try assumption; try (now left).
    + right. eexists. split; [reflexivity|]. destruct (whole_show (Npos d)) as [H | [H _]]; [rewrite H; split; [discriminate|]|exact H].
      constructor; [unfold digit_code; lia|constructor].
  - unfold read_q. change (Cmd.show_int n ++ [46%N] ++ Cmd.show_digits (N.to_uint (N.pos d))) with (Cmd.show_int n ++ 46%N :: Cmd.show_digits (N.to_uint (N.pos d))). destruct (dot_split (Cmd.show_int n) (Cmd.show_digits (N.to_uint (Npos d)))) as [-> ->].
    { rewrite E. apply Forall_app. split.
      - destruct S as [-> | ->]; repeat constructor. discriminate.
      - destruct W as [-> | [[_ W] _]]; [repeat constructor; discriminate|]. eapply Forall_impl; [|exact W]. unfold digit_code. lia. }
    unfold int_of. rewrite CmdP.py_int_show. change (Cmd.show_digits (N.to_uint (Npos d))) with (Cmd.show_int (Z.pos d)). rewrite CmdP.py_int_show. reflexivity.
Qed.
