(** Lemmas about recorded commands: the commands are split and parsed symbolically, once for every outcome of their tests. *)
From Coq Require DecimalN DecimalPos.
From Coq Require Import String Ascii List ZArith NArith Bool Lia.
From Verif.Model Require Import Py ShipLog Cmd.
From Verif.Spec Require Import CmdSpec.
Import ListNotations.

Lemma text_eqb_spec a b : text_eqb a b = true <-> a = b.
Proof.
  revert b; induction a as [|x a IH]; intros [|y b]; cbn; split; try congruence; intro H.
  - apply andb_true_iff in H as [H1 H2]. apply N.eqb_eq in H1. apply IH in H2. congruence.
  - injection H as -> ->. rewrite N.eqb_refl. now apply IH.
Qed.

(** ** Decimal numbers *)
Lemma digits_cons c t a acc : is_digit c = true -> digits a acc (c :: t) = digits true (10 * acc + (Z.of_N c - 48))%Z t.
Proof. cbn. now intros ->. Qed.
Lemma digits_acc d p : digits true (Z.pos p) (show_digits d) = Ok (Z.pos (Pos.of_uint_acc d p)).
Proof.
  revert p; induction d as [|d IH|d IH|d IH|d IH|d IH|d IH|d IH|d IH|d IH|d IH]; intro p;
    [ reflexivity | cbn [show_digits]; rewrite digits_cons by reflexivity; cbn [Pos.of_uint_acc]; rewrite <- IH; f_equal; lia ..].
Qed.
Lemma digits_start d a : d <> Decimal.Nil -> digits a 0 (show_digits d) = Ok (Z.of_N (Pos.of_uint d)).
Proof.
  revert a; induction d as [|d IH|d IH|d IH|d IH|d IH|d IH|d IH|d IH|d IH|d IH]; intros a H;
    [ congruence | | cbn [show_digits Pos.of_uint]; change (Z.of_N (N.pos ?p)) with (Z.pos p); rewrite <- digits_acc; reflexivity ..].
  destruct d; [reflexivity|..]; exact (IH true ltac:(discriminate)).
Qed.
Lemma to_uint_nonnil n : N.to_uint n <> Decimal.Nil.
Proof. destruct n; cbn; [discriminate|]. apply DecimalPos.Unsigned.to_uint_nonnil. Qed.
Lemma digits_show n a : digits a 0 (show_digits (N.to_uint n)) = Ok (Z.of_N n).
Proof.
  rewrite digits_start by apply to_uint_nonnil. f_equal. f_equal. exact (DecimalN.Unsigned.of_to n).
Qed.
Lemma show_digits_digits d : Forall a_digit (show_digits d).
Proof. induction d; cbn; [constructor | constructor; [unfold a_digit; lia|assumption] ..]. Qed.
Lemma show_digits_nonnil d : d <> Decimal.Nil -> show_digits d <> [].
Proof. destruct d; cbn; congruence. Qed.
Lemma digit_not_blank c : a_digit c -> is_blank c = false.
Proof.
  intros [H1 H2]. unfold is_blank.
  destruct (N.leb_spec 9 c), (N.leb_spec c 13), (N.leb_spec 28 c), (N.leb_spec c 32); cbn; try reflexivity; lia.
Qed.
Lemma strip_left_head c t : is_blank c = false -> strip_left (c :: t) = c :: t.
Proof. cbn. now intros ->. Qed.
Lemma strip_id t : Forall (fun c => is_blank c = false) t -> strip t = t.
Proof.
  intro H. unfold strip.
  assert (E : forall u, Forall (fun c => is_blank c = false) u -> strip_left u = u) by (intros [|c u] K; [reflexivity|inversion K; now apply strip_left_head]).
  rewrite (E t H), (E (rev t)) by now apply Forall_rev. apply rev_involutive.
Qed.
Lemma py_int_show z : py_int (show_int z) = Ok z.
Proof.
  unfold py_int.
  rewrite strip_id.
  - destruct z as [|p|p]; [reflexivity| |].
    + cbn [show_int]. pose proof (digits_show (Z.to_N (Z.pos p)) false) as H.
      pose proof (show_digits_digits (N.to_uint (Z.to_N (Z.pos p)))) as D.
      pose proof (show_digits_nonnil _ (to_uint_nonnil (Z.to_N (Z.pos p)))) as K.
      rewrite Znat.Z2N.id in H by lia.
      destruct (show_digits (N.to_uint (Z.to_N (Z.pos p)))) as [|c t] eqn:E; [congruence|].
      inversion D as [|? ? [D1 D2] _]; subst.
      destruct (N.eqb_spec c 45); [lia|]. destruct (N.eqb_spec c 43); [lia|]. exact H.
    + change (show_int (Z.neg p)) with (45%N :: show_digits (N.to_uint (N.pos p))). cbv iota beta. rewrite N.eqb_refl.
      rewrite digits_show. reflexivity.
  - assert (D : forall d, Forall (fun c => is_blank c = false) (show_digits d)).
    { intro d. eapply Forall_impl; [|apply show_digits_digits]. exact digit_not_blank. }
    destruct z as [|p|p]; cbn [show_int]; [apply D | apply D | constructor; [reflexivity|apply D]].
Qed.
Lemma digit_plain c : a_digit c -> plain_char c.
Proof. unfold a_digit, plain_char. lia. Qed.
Lemma show_int_plain z : plain (show_int z).
Proof.
  split.
  - destruct z; cbn [show_int]; try discriminate; apply show_digits_nonnil, to_uint_nonnil.
  - assert (D : forall d, Forall plain_char (show_digits d)).
    { intro d. eapply Forall_impl; [|apply show_digits_digits]. exact digit_plain. }
    destruct z; cbn [show_int]; [apply D | apply D | constructor; [unfold plain_char; lia|apply D]].
Qed.
Lemma show_int_argument z : argument (show_int z).
Proof.
  assert (P : forall n c u, show_digits (N.to_uint n) = c :: u -> c <> 45%N).
  { intros n c u E. pose proof (show_digits_digits (N.to_uint n)) as D. rewrite E in D. inversion D as [|? ? [D1 D2] _]; subst. lia. }
  destruct z; [left; apply P | left; apply P | right].
  eexists; split; [reflexivity|]. left. split; [apply show_digits_nonnil, to_uint_nonnil | apply show_digits_digits].
Qed.

(** ** Arguments of options *)
Lemma is_digit_spec c : is_digit c = true <-> a_digit c.
Proof. unfold is_digit, a_digit. rewrite andb_true_iff, !N.leb_le. tauto. Qed.
Lemma drop_digits_all t : Forall a_digit t -> forall u, drop_digits (t ++ u) = drop_digits u.
Proof. induction 1 as [|c t H _ IH]; intro u; [reflexivity|]. cbn [app drop_digits]. rewrite (proj2 (is_digit_spec c) H). apply IH. Qed.
Lemma all_digits_spec t : digits_only t -> all_digits t = true.
Proof.
  intros [H D]. unfold all_digits. destruct t; [congruence|]. rewrite <- (app_nil_r (n :: t)). now rewrite drop_digits_all.
Qed.
Lemma after_eq_none t : Forall (fun c => c <> 61%N) t -> after_eq t = None.
Proof. induction 1 as [|c t H _ IH]; [reflexivity|]. cbn. destruct (N.eqb_spec c 61); [congruence|exact IH]. Qed.
Lemma find_long_none opts t : starts (ascii "--") t = false -> find_long opts t = None.
Proof.
  intro H. unfold find_long. induction opts as [|o opts IH]; [reflexivity|]. cbn [find].
  destruct (text_eqb (long o) t) eqn:E; [|exact IH]. apply text_eqb_spec in E. subst t. unfold long in H. cbn in H. discriminate.
Qed.
Lemma classify_argument opts t : argument t -> classify opts t = Positional.
Proof.
  intros [H|(u & -> & H)].
  - destruct t as [|c u]; [reflexivity|]. cbn [classify]. specialize (H c u eq_refl). now destruct (N.eqb_spec c 45).
  - assert (A : exists d v, u = d :: v /\ (a_digit d \/ d = 46%N)).
    { destruct H as [[H1 H2]|(v & w & -> & H1 & H2)].
      - destruct u as [|d v]; [congruence|]. inversion H2; subst. eauto.
      - destruct v as [|d v]; [cbn; eauto|]. inversion H1; subst. cbn. eauto. }
    assert (C : Forall (fun c => c <> 61%N) (45%N :: u)).
    { constructor; [discriminate|]. destruct H as [[H1 H2]|(v & w & -> & H1 & [H2 H3])].
      - eapply Forall_impl; [|exact H2]. unfold a_digit. intros; lia.
      - apply Forall_app; split; [eapply Forall_impl; [|exact H1]; unfold a_digit; intros; lia|].
        constructor; [lia|]. eapply Forall_impl; [|exact H3]; unfold a_digit; intros; lia. }
    assert (NN : negative_number (45%N :: u) = true).
    { cbn [negative_number]. rewrite N.eqb_refl. cbn [andb]. apply orb_true_iff. destruct H as [H|(v & w & -> & H1 & H2)].
      - left. now apply all_digits_spec.
      - right. rewrite drop_digits_all by assumption. cbn [drop_digits]. cbn [is_digit N.leb N.compare Pos.compare Pos.compare_cont andb].
        rewrite N.eqb_refl. now apply all_digits_spec. }
    destruct A as (d & v & -> & Hd).
    assert (D45 : (d =? 45)%N = false) by (apply N.eqb_neq; unfold a_digit in Hd; lia).
    assert (D104 : (d =? 104)%N = false) by (apply N.eqb_neq; unfold a_digit in Hd; lia).
    assert (S1 : starts (ascii "--") (45%N :: d :: v) = false).
    { change (ascii "--") with [45; 45]%N. cbn [starts]. rewrite (N.eqb_sym 45 d), D45. reflexivity. }
    assert (S2 : starts (ascii "-h") (45%N :: d :: v) = false).
    { change (ascii "-h") with [45; 104]%N. cbn [starts]. rewrite (N.eqb_sym 104 d), D104. reflexivity. }
    unfold classify. rewrite N.eqb_refl. cbn [negb].
    assert (E1 : text_eqb (45%N :: d :: v) (ascii "-h") = false).
    { change (ascii "-h") with [45; 104]%N. cbn [text_eqb]. rewrite D104. reflexivity. }
    assert (E2 : text_eqb (45%N :: d :: v) (ascii "--help") = false).
    { change (ascii "--help") with [45; 45; 104; 101; 108; 112]%N. cbn [text_eqb]. rewrite D45. reflexivity. }
    rewrite E1, E2. cbn [orb]. rewrite find_long_none by assumption. rewrite after_eq_none by assumption.
    rewrite S1, S2, NN. reflexivity.
Qed.

Lemma all_digits_back u : all_digits u = true -> digits_only u.
Proof.
  destruct u as [|c u]; [discriminate|]. intros H. split; [discriminate|]. cbn [all_digits] in H.
  assert (D : drop_digits (c :: u) = []) by (destruct (drop_digits (c :: u)); [reflexivity|discriminate]). clear H. revert D. generalize (c :: u). clear. intros l.
  induction l as [|c l IH]; [constructor|]. cbn [drop_digits]. destruct (is_digit c) eqn:E; [|discriminate]. intros D. constructor; [|auto].
  unfold is_digit in E. unfold a_digit. apply andb_true_iff in E as [E1 E2]. apply N.leb_le in E1, E2. auto.
Qed.
Lemma negative_argument u : negative_number (45%N :: u) = true -> argument (45%N :: u).
Proof.
  cbn [negative_number]. rewrite N.eqb_refl. cbn [andb]. intros H. right. exists u. split; [reflexivity|]. apply orb_true_iff in H as [H|H].
  - left. revert H. apply all_digits_back.
  - right. assert (D : exists v, u = v ++ drop_digits u /\ Forall a_digit v).
    { clear H. induction u as [|c u (v & E & F)]; [exists []; split; [reflexivity|constructor]|]. cbn [drop_digits]. destruct (is_digit c) eqn:Ec.
      - exists (c :: v). split; [cbn [app]; now rewrite <- E|]. constructor; [|exact F]. unfold is_digit in Ec. unfold a_digit. apply andb_true_iff in Ec as [E1 E2]. apply N.leb_le in E1, E2. auto.
      - exists []. split; [reflexivity|constructor]. }
    destruct D as (v & E & F). destruct (drop_digits u) as [|d w]; [discriminate|]. apply andb_true_iff in H as [H1 H2]. apply N.eqb_eq in H1 as ->.
    exists v, w. split; [exact E|]. split; [exact F|]. revert H2. apply all_digits_back.
Qed.
Lemma classify_dash opts d v : d <> 45%N -> d <> 104%N -> ~ argument (45%N :: d :: v) ->
  classify opts (45%N :: d :: v) = if member 32 (d :: v) then Positional else Refused.
Proof.
  intros Nd45 Nd104 Na.
  assert (D45 : (d =? 45)%N = false) by now apply N.eqb_neq.
  assert (D104 : (d =? 104)%N = false) by now apply N.eqb_neq.
  assert (S1 : starts (ascii "--") (45%N :: d :: v) = false).
  { change (ascii "--") with [45; 45]%N. cbn [starts]. rewrite (N.eqb_sym 45 d), D45. reflexivity. }
  assert (S2 : starts (ascii "-h") (45%N :: d :: v) = false).
  { change (ascii "-h") with [45; 104]%N. cbn [starts]. rewrite (N.eqb_sym 104 d), D104. reflexivity. }
  assert (S3 : starts (ascii "--") (before_eq (45%N :: d :: v)) = false).
  { change (ascii "--") with [45; 45]%N. cbn [before_eq]. change (45 =? 61)%N with false. cbv iota. destruct (d =? 61)%N; [reflexivity|]. cbn [starts]. rewrite (N.eqb_sym 45 d), D45. reflexivity. }
  unfold classify. rewrite N.eqb_refl. cbn [negb].
  assert (E1 : text_eqb (45%N :: d :: v) (ascii "-h") = false).
  { change (ascii "-h") with [45; 104]%N. cbn [text_eqb]. rewrite D104. reflexivity. }
  assert (E2 : text_eqb (45%N :: d :: v) (ascii "--help") = false).
  { change (ascii "--help") with [45; 45; 104; 101; 108; 112]%N. cbn [text_eqb]. rewrite D45. reflexivity. }
  rewrite E1, E2. cbn [orb]. rewrite find_long_none by assumption. rewrite (find_long_none opts (before_eq _)) by assumption.
  rewrite S1, S2. destruct (after_eq (45%N :: d :: v)); cbn [option_map];
    (destruct (negative_number (45%N :: d :: v)) eqn:NN; [exfalso; apply Na, negative_argument, NN|reflexivity]).
Qed.

(** ** Words, symbolically *)
Inductive hole := HArg (x : string) | HCount | HFile.
Inductive sym := C (c : N) | H (h : hole).
Definition lits (t : text) : list sym := map C t.
Fixpoint resolve_item (b : string -> bool) (i : item) : list sym :=
  match i with
  | Lit s => lits (ascii s)
  | Val (Arg x) => [H (HArg x)]
  | Val (Pos x) => if b x then [H (HArg x)] else lits (ascii "None")
  | Val Count => [H HCount]
  | Val File => [H HFile]
  | If x yes no =>
      let fix all (l : list item) : list sym := match l with i :: l => resolve_item b i ++ all l | [] => [] end in
      if b x then all yes else all no
  end.
Definition resolve (b : string -> bool) (l : list item) : list sym := flat_map (resolve_item b) l.
Fixpoint swords_from (acc : list sym) (l : list sym) : list (list sym) :=
  match l with
  | [] => match acc with [] => [] | _ => [rev acc] end
  | C c :: t =>
      if (c =? 32)%N then match acc with [] => swords_from [] t | _ => rev acc :: swords_from [] t end else swords_from (C c :: acc) t
  | h :: t => swords_from (h :: acc) t
  end.
Definition swords (l : list sym) : list (list sym) := swords_from [] l.

(** The names tested by a command. *)
Fixpoint tests_item (i : item) : list string :=
  match i with
  | Val (Pos x) => [x]
  | If x yes no =>
      let fix all (l : list item) : list string := match l with i :: l => tests_item i ++ all l | [] => [] end in
      x :: all yes ++ all no
  | _ => []
  end.
Fixpoint item_ext (b b' : string -> bool) (i : item) {struct i} :
  (forall x, In x (tests_item i) -> b x = b' x) -> resolve_item b i = resolve_item b' i.
Proof.
  destruct i as [s|e|x yes no]; intro E.
  - reflexivity.
  - destruct e as [x|x| |]; try reflexivity. cbn in *. rewrite (E x) by tauto. reflexivity.
  - cbn [resolve_item]. cbn [tests_item] in E. rewrite (E x) by now left.
    assert (Ey : forall l, (forall y, In y ((fix all (l : list item) : list string := match l with i :: l => tests_item i ++ all l | [] => [] end) l) -> b y = b' y) ->
      (fix all (l : list item) : list sym := match l with i :: l => resolve_item b i ++ all l | [] => [] end) l =
      (fix all (l : list item) : list sym := match l with i :: l => resolve_item b' i ++ all l | [] => [] end) l).
    { induction l as [|i l IH]; intro K; [reflexivity|].
      rewrite (item_ext b b' i) by (intros y Hy; apply K, in_or_app; now left).
      rewrite IH by (intros y Hy; apply K, in_or_app; now right). reflexivity. }
    rewrite (Ey yes) by (intros y Hy; apply E; right; apply in_or_app; now left).
    rewrite (Ey no) by (intros y Hy; apply E; right; apply in_or_app; now right). reflexivity.
Qed.
Lemma resolve_ext b b' l : (forall x, In x (flat_map tests_item l) -> b x = b' x) -> resolve b l = resolve b' l.
Proof.
  intro E. unfold resolve. induction l as [|i l IH]; [reflexivity|]. cbn [flat_map] in *.
  rewrite (item_ext b b' i) by (intros y Hy; apply E, in_or_app; now left).
  rewrite IH by (intros y Hy; apply E, in_or_app; now right). reflexivity.
Qed.

(** ** Parsing, symbolically *)
Inductive src := SArg (x : string) | SCount | SInt (z : Z).
Inductive outcome := Accepted (l : list (string * src)) | Rejected | Unclear.
Fixpoint lit_of (w : list sym) : option text :=
  match w with [] => Some [] | C c :: t => option_map (cons c) (lit_of t) | H _ :: _ => None end.
Definition otype_eqb (a b : otype) : bool := match a, b with TInt, TInt | TFloat, TFloat | TStr, TStr => true | _, _ => false end.
Definition add (x : string) (s : src) (r : outcome) : outcome := match r with Accepted l => Accepted ((x, s) :: l) | _ => r end.
Fixpoint sparse (opts : list opt) (ws : list (list sym)) : outcome :=
  match ws with
  | [] => Accepted []
  | w :: rest =>
      match lit_of w with
      | Some a =>
          match classify opts a with
          | Named o None =>
              match rest with
              | [H (HArg x)] :: rest' => if String.eqb x (o_name o) then add (o_name o) (SArg x) (sparse opts rest') else Unclear
              | [H HCount] :: rest' => if otype_eqb (o_type o) TInt then add (o_name o) SCount (sparse opts rest') else Unclear
              | v :: rest' =>
                  match lit_of v with
                  | Some t =>
                      match classify opts t, o_type o with
                      | Positional, TInt => match py_int t with Ok z => add (o_name o) (SInt z) (sparse opts rest') | Err _ => Rejected end
                      | _, _ => Unclear
                      end
                  | None => Unclear
                  end
              | [] => Unclear
              end
          | Refused => Rejected
          | _ => Unclear
          end
      | None => Unclear
      end
  end.

Section Sound.
Variable F : Type.
Variable show_float : F -> text.
Variable read_float : text -> option F.
Variable literal : string -> F.
Variable of_int : Z -> F.
Hypothesis read_show : forall x, read_float (show_float x) = Some x.
Hypothesis read_int : forall z, read_float (show_int z) = Some (of_int z).
Notation value := (value F).
Notation namespace := (namespace F).
Notation show := (show F show_float).
Notation convert := (convert F read_float).

Variable ns : namespace.
Variable n : Z.
Variable file : text.
Definition hole_text (h : hole) : text := match h with HArg x => show_arg F show_float ns x | HCount => show_int n | HFile => file end.
Definition sym_text (s : sym) : text := match s with C c => [c] | H h => hole_text h end.
Definition word_text (w : list sym) : text := flat_map sym_text w.

Lemma lits_text t : word_text (lits t) = t.
Proof. unfold word_text, lits. induction t as [|c t IH]; [reflexivity|]. cbn. now rewrite IH. Qed.
Fixpoint item_text (i : item) {struct i} : render_item F show_float ns n file i = word_text (resolve_item (positive ns) i).
Proof.
  destruct i as [s|e|x yes no].
  - cbn [render_item resolve_item]. now rewrite lits_text.
  - destruct e as [x|x| |]; cbn [render_item show_source resolve_item]; try (cbn; now rewrite app_nil_r).
    destruct (positive ns x); [cbn; now rewrite app_nil_r | now rewrite lits_text].
  - cbn [render_item resolve_item].
    assert (E : forall l,
      (fix all (l : list item) : text := match l with i :: l => render_item F show_float ns n file i ++ all l | [] => [] end) l =
      word_text ((fix all (l : list item) : list sym := match l with i :: l => resolve_item (positive ns) i ++ all l | [] => [] end) l)).
    { induction l as [|i l IH]; [reflexivity|]. rewrite item_text, IH. unfold word_text. now rewrite flat_map_app. }
    destruct (positive ns x); apply E.
Qed.
Lemma record_text l : flat_map (render_item F show_float ns n file) l = word_text (resolve (positive ns) l).
Proof.
  unfold resolve. induction l as [|i l IH]; [reflexivity|]. cbn [flat_map]. rewrite item_text, IH. unfold word_text. now rewrite flat_map_app.
Qed.

Definition solid (h : hole) : Prop := hole_text h <> [] /\ Forall (fun c => c <> 32%N) (hole_text h).
Lemma words_push t acc s : Forall (fun c => c <> 32%N) t -> words_from acc (t ++ s) = words_from (rev t ++ acc) s.
Proof.
  intro K. revert acc. induction K as [|c t K _ IH]; intro acc; [reflexivity|].
  cbn [app words_from rev]. destruct (N.eqb_spec c 32); [congruence|]. rewrite IH, <- app_assoc. reflexivity.
Qed.
Definition holes (l : list sym) : list hole := flat_map (fun s => match s with H h => [h] | C _ => [] end) l.
Lemma word_text_nonnil w : Forall solid (holes w) -> w <> [] -> word_text w <> [].
Proof.
  destruct w as [|[c|h] w]; intros K E; [congruence|discriminate|]. cbn in K. inversion K as [|? ? [K1 _] _]; subst.
  cbn. destruct (hole_text h); [congruence|discriminate].
Qed.
Lemma words_swords l : Forall solid (holes l) -> forall acc, Forall solid (holes acc) ->
  words_from (rev (word_text (rev acc))) (word_text l) = map word_text (swords_from acc l).
Proof.
  assert (R : forall acc, Forall solid (holes acc) -> Forall solid (holes (rev acc))).
  { intros acc K. apply Forall_forall. intros h Hh. rewrite Forall_forall in K. apply K.
    unfold holes in *. apply in_flat_map in Hh as (s & Hs & Hh). apply in_flat_map. exists s. split; [now apply in_rev|exact Hh]. }
  assert (End : forall acc, Forall solid (holes acc) ->
    match rev (word_text (rev acc)) with [] => [] | _ :: _ => [rev (rev (word_text (rev acc)))] end =
    map word_text match acc with [] => [] | _ => [rev acc] end).
  { intros acc K. destruct acc as [|s acc]; [reflexivity|]. pose proof (word_text_nonnil (rev (s :: acc)) (R _ K)) as E.
    assert (E' : rev (s :: acc) <> []) by (cbn; intro E'; destruct (rev acc); discriminate). specialize (E E').
    rewrite rev_involutive. destruct (word_text (rev (s :: acc))) as [|c t] eqn:Q; [congruence|].
    destruct (rev (c :: t)) eqn:Q'; [apply (f_equal (@length N)) in Q'; rewrite rev_length in Q'; discriminate|]. cbn [map]. now rewrite Q. }
  induction l as [|[c|h] l IH]; intros K acc Ka.
  - cbn [word_text flat_map words_from swords_from]. now apply End.
  - cbn [word_text flat_map sym_text app words_from swords_from]. fold (word_text l).
    destruct (N.eqb_spec c 32) as [->|Nc].
    + specialize (End acc Ka). specialize (IH K [] (Forall_nil _)). cbn [rev word_text flat_map] in IH.
      destruct (rev (word_text (rev acc))) as [|d u] eqn:Q.
      * destruct acc as [|s acc]; [exact IH|]. exfalso.
        assert (E : word_text (rev (s :: acc)) <> []).
        { apply word_text_nonnil; [now apply R|]. cbn. intro E'; destruct (rev acc); discriminate. }
        apply E. rewrite <- (rev_involutive (word_text (rev (s :: acc)))), Q. reflexivity.
      * destruct acc as [|s acc]; [discriminate|]. cbn [map] in *. apply (f_equal (fun l => hd [] l)) in End. cbn [hd] in End.
        now rewrite End, IH.
    + rewrite <- (IH K (C c :: acc) Ka). f_equal. cbn [rev]. unfold word_text. rewrite flat_map_app, rev_app_distr. reflexivity.
  - cbn [holes flat_map app] in K. inversion K as [|? ? [K1 K2] K3]; subst.
    cbn [word_text flat_map sym_text swords_from]. fold (word_text l). rewrite words_push by assumption.
    rewrite <- (IH K3 (H h :: acc)); [|cbn; now constructor; [split|]].
    f_equal. cbn [rev]. unfold word_text. rewrite flat_map_app, rev_app_distr. cbn [flat_map sym_text]. now rewrite app_nil_r.
Qed.

(** The options the namespace was made for. *)
Variable opts : list opt.
Definition fits (ty : otype) (v : value) : Prop :=
  match ty, v with TInt, VInt _ | TFloat, VFloat _ | TFloat, VInt _ | TStr, VStr _ => True | _, _ => False end.
Definition writable (v : value) : Prop := plain (show v) /\ argument (show v).
Hypothesis typed : forall o, In o opts -> exists v, get ns (o_name o) = Some v /\ fits (o_type o) v /\ writable v.

Definition src_value (o : opt) (s : src) : value :=
  match s with
  | SArg x => match get ns x with Some v => reread F of_int (o_type o) v | None => VInt 0 end
  | SCount => VInt n
  | SInt z => VInt z
  end.
Lemma convert_show ty v : fits ty v -> convert ty (show v) = Some (reread F of_int ty v).
Proof.
  destruct ty, v; cbn; intro E; try easy.
  - now rewrite py_int_show.
  - now rewrite read_int.
  - now rewrite read_show.
Qed.
Lemma lit_of_text w t : lit_of w = Some t -> word_text w = t.
Proof.
  revert t; induction w as [|[c|h] w IH]; cbn; intros t E; [congruence| |discriminate].
  destruct (lit_of w) as [u|]; [|discriminate]. injection E as <-. unfold word_text in IH. now rewrite (IH u).
Qed.
Lemma classify_in a o e : classify opts a = Named o e -> In o opts.
Proof.
  assert (Fi : forall b o, find_long opts b = Some o -> In o opts) by (intros b o' E; now apply find_some in E as [E _]).
  unfold classify. destruct a as [|c t]; [discriminate|].
  destruct (negb (c =? 45)%N); [discriminate|].
  destruct (text_eqb (c :: t) (ascii "-h") || text_eqb (c :: t) (ascii "--help"))%bool; [discriminate|].
  destruct (find_long opts (c :: t)) as [o'|] eqn:E1; [intro K; injection K as -> _; eauto|].
  destruct t as [|d t]; [discriminate|].
  destruct (match after_eq (c :: d :: t) with Some e => option_map (fun o => (o, e)) (find_long opts (before_eq (c :: d :: t))) | None => None end)
    as [[o' e']|] eqn:E2.
  { intro K; injection K as -> _. destruct (after_eq (c :: d :: t)); [|discriminate].
    destruct (find_long opts (before_eq (c :: d :: t))) eqn:E3; [|discriminate]. injection E2 as -> _. eauto. }
  cbv zeta.
  destruct (starts (ascii "--") (c :: d :: t)).
  - destruct (filter _ opts) as [|o' [|? ?]] eqn:E3;
      destruct (starts (before_eq (c :: d :: t)) (ascii "--help")); try discriminate.
    + destruct (negative_number (c :: d :: t) || member 32 (c :: d :: t))%bool; discriminate.
    + intro K; injection K as -> _. assert (In o [o]) as I by now left. rewrite <- E3 in I. now apply filter_In in I as [I _].
  - destruct (starts (ascii "-h") (c :: d :: t)); [discriminate|].
    destruct (negative_number (c :: d :: t) || member 32 (c :: d :: t))%bool; discriminate.
Qed.

Definition assign (f : opt -> value) (p : string * src) (o : opt) : value := if String.eqb (o_name o) (fst p) then src_value o (snd p) else f o.
Definition as_ns (f : opt -> value) : namespace := map (fun o => (o_name o, f o)) opts.
Hypothesis distinct : NoDup (map o_name opts).
Lemma same_name o o' : In o opts -> In o' opts -> o_name o = o_name o' -> o = o'.
Proof.
  revert distinct. generalize opts. intro l. induction l as [|p l IH]; cbn; intros D I1 I2 E; [easy|].
  inversion D as [|? ? D1 D2]; subst.
  destruct I1 as [<-|I1], I2 as [<-|I2]; [reflexivity| | |now apply IH].
  - exfalso. apply D1. rewrite E. now apply in_map.
  - exfalso. apply D1. rewrite <- E. now apply in_map.
Qed.
Lemma set_as_ns f o v : In o opts ->
  set F (o_name o) v (as_ns f) = as_ns (fun o' => if String.eqb (o_name o') (o_name o) then v else f o').
Proof.
  intro I. unfold set, as_ns. rewrite map_map. apply map_ext. intro o'. cbn [fst]. now destruct (String.eqb (o_name o') (o_name o)).
Qed.
Lemma set_assign f o s v : In o opts -> v = src_value o s ->
  set F (o_name o) v (as_ns f) = as_ns (assign f (o_name o, s)).
Proof.
  intros I ->. rewrite set_as_ns by assumption. unfold as_ns. apply map_ext_in. intros o' I'. unfold assign. cbn [fst snd].
  destruct (String.eqb_spec (o_name o') (o_name o)) as [E|]; [|reflexivity]. now rewrite (same_name o' o I' I E).
Qed.

Definition sound (f : opt -> value) (ws : list (list sym)) (r : outcome) : Prop :=
  match r with
  | Accepted l => parse_from F read_float opts (as_ns f) (map word_text ws) = Some (as_ns (fold_left assign l f))
  | Rejected => parse_from F read_float opts (as_ns f) (map word_text ws) = None
  | Unclear => True
  end.
Lemma sparse_sound ws : forall f, sound f ws (sparse opts ws).
Proof.
  induction ws as [ws IH] using (well_founded_induction (well_founded_ltof _ (@length (list sym)))). intro f.
  destruct ws as [|w rest]; [reflexivity|]. cbn [sparse].
  destruct (lit_of w) as [a|] eqn:Ea; [|exact I].
  pose proof (lit_of_text w a Ea) as Ta.
  destruct (classify opts a) as [|o [e|]|] eqn:Ec; try exact I.
  2:{ cbn [sound map parse_from]. rewrite Ta, Ec. reflexivity. }
  pose proof (classify_in _ _ _ Ec) as Io.
  assert (Step : forall v rest' s, rest = v :: rest' -> classify opts (word_text v) = Positional ->
    convert (o_type o) (word_text v) = Some (src_value o s) -> sound f (w :: rest) (add (o_name o) s (sparse opts rest'))).
  { intros v rest' s -> Cv Vv.
    assert (IH' : forall f, sound f rest' (sparse opts rest')) by (intro f'; apply IH; unfold ltof; cbn; lia).
    assert (Q : parse_from F read_float opts (as_ns f) (map word_text (w :: v :: rest')) =
                parse_from F read_float opts (as_ns (assign f (o_name o, s))) (map word_text rest')).
    { cbn [map parse_from]. rewrite Ta, Ec, Cv, Vv. now rewrite (set_assign f o s _ Io eq_refl). }
    specialize (IH' (assign f (o_name o, s))).
    destruct (sparse opts rest') as [l| |]; cbn [add sound] in *; [now rewrite Q, IH'|now rewrite Q|exact I]. }
  assert (Lit : forall v rest', rest = v :: rest' -> sound f (w :: rest)
    match lit_of v with
    | Some t =>
        match classify opts t, o_type o with
        | Positional, TInt => match py_int t with Ok z => add (o_name o) (SInt z) (sparse opts rest') | Err _ => Rejected end
        | _, _ => Unclear
        end
    | None => Unclear
    end).
  { intros v rest' E. destruct (lit_of v) as [t|] eqn:Ev; [|exact I]. pose proof (lit_of_text v t Ev) as Tv.
    destruct (classify opts t) as [| |] eqn:Ct; try exact I. destruct (o_type o) eqn:To; try exact I.
    destruct (py_int t) as [z|e] eqn:Pt.
    - apply (Step v rest' (SInt z) E); [now rewrite Tv|]. rewrite Tv. cbn. now rewrite Pt.
    - subst rest. cbn [sound map parse_from]. rewrite Ta, Ec, Tv, Ct, To. cbn. now rewrite Pt. }
  destruct rest as [|v rest']; [exact I|].
  specialize (Lit v rest' eq_refl).
  destruct v as [|s [|s' v']]; [exact Lit| |destruct s as [|[| |]]; exact Lit].
  destruct s as [c|[x| |]]; [exact Lit| | |exact Lit].
  - destruct (String.eqb_spec x (o_name o)) as [->|]; [|exact I].
    destruct (typed o Io) as (v & Gv & Fv & Pv & Av).
    assert (T : word_text [H (HArg (o_name o))] = show v) by (cbn; unfold show_arg; rewrite Gv; apply app_nil_r).
    apply (Step [H (HArg (o_name o))] rest' (SArg (o_name o)) eq_refl); rewrite T.
    + now apply classify_argument.
    + cbn [src_value]. rewrite Gv. now apply convert_show.
  - destruct (otype_eqb (o_type o) TInt) eqn:To; [|exact I].
    assert (T : word_text [H HCount] = show_int n) by (cbn; apply app_nil_r).
    apply (Step [H HCount] rest' SCount eq_refl); rewrite T.
    + apply classify_argument, show_int_argument.
    + destruct (o_type o); try discriminate. cbn. now rewrite py_int_show.
Qed.
End Sound.

(** ** All the scripts *)
Definition table (w nn p m : bool) (x : string) : bool :=
  if String.eqb x "window_len" then w else if String.eqb x "N" then nn else if String.eqb x "processes" then p
  else if String.eqb x "multiply_data" then m else false.
Definition tested : list string := ["window_len"; "N"; "processes"; "multiply_data"]%string.
Definition mem (l : list string) (x : string) : bool := existsb (String.eqb x) l.
Fixpoint nodupb (l : list string) : bool := match l with [] => true | x :: l => negb (mem l x) && nodupb l end.
Definition last_src (x : string) (l : list (string * src)) : option src :=
  fold_left (fun acc p => if String.eqb x (fst p) then Some (snd p) else acc) l None.
Definition src_eqb (a b : src) : bool :=
  match a, b with SArg x, SArg y => String.eqb x y | SCount, SCount => true | SInt x, SInt y => Z.eqb x y | _, _ => false end.
Definition osrc_eqb (a b : option src) : bool := match a, b with Some a, Some b => src_eqb a b | None, None => true | _, _ => false end.
Definition spec_src (file : string) (b : string -> bool) (x : string) : option src :=
  match fate_of file x with
  | Same => Some (SArg x)
  | Lost => None
  | Floor => if b x then Some (SArg x) else Some (SInt 0)
  | IfPositive => if b x then Some (SArg x) else None
  | WordCount => if b x then Some SCount else None
  | IfBoth => if b x && b "N"%string then Some (SArg x) else None
  end.
Definition accepts (file : string) (b : string -> bool) : bool :=
  if existsb (String.eqb file)
       ["runs/HC_eilat_July_2018/classifying_entropy_decoder_over_awgn_channel.py"; "runs/HC_eilat_July_2018/simulated_data_pretrained_model.py"]%string
  then false
  else if String.eqb file "runs/Feb_2022/experimental_mavlink_based.py" then b "window_len"%string
  else true.
Definition holes_ok (opts : list opt) (l : list sym) : bool :=
  forallb (fun h => match h with HArg x => mem (map o_name opts) x | _ => true end) (holes l).
Definition check_at (s : script) (b : string -> bool) : bool :=
  let l := resolve b (s_command s) in
  holes_ok (s_options s) l &&
  match swords l with
  | p :: [H HFile] :: rest =>
      match lit_of p with Some t => text_eqb t (ascii "python") | None => false end &&
      match sparse (s_options s) rest, accepts (s_file s) b with
      | Accepted l, true => forallb (fun o => osrc_eqb (last_src (o_name o) l) (spec_src (s_file s) b (o_name o))) (s_options s)
      | Rejected, false => true
      | _, _ => false
      end
  | _ => false
  end.
Definition both : list bool := [false; true].
Definition fit_default (o : opt) : bool :=
  match o_type o, o_default o with TInt, DInt _ | TFloat, DInt _ | TFloat, DFloat _ | TStr, DStr _ => true | _, _ => false end.
Definition check (s : script) : bool :=
  nodupb (map o_name (s_options s)) && forallb fit_default (s_options s) &&
  forallb (fun o => negb (String.eqb (o_name o) "classifier_train") || otype_eqb (o_type o) TInt) (s_options s) &&
  forallb (mem tested) (flat_map tests_item (s_command s)) &&
  forallb (fun w => forallb (fun nn => forallb (fun p => forallb (fun m => check_at s (table w nn p m)) both) both) both) both.

Lemma mem_spec l x : mem l x = true <-> In x l.
Proof.
  unfold mem. rewrite existsb_exists. split; [intros (y & I & E); apply String.eqb_eq in E; now subst|].
  intro I. exists x. split; [exact I|apply String.eqb_refl].
Qed.
Lemma nodupb_spec l : nodupb l = true -> NoDup l.
Proof.
  induction l as [|x l IH]; cbn; intro E; constructor; apply andb_true_iff in E as [E1 E2]; [|now apply IH].
  rewrite negb_true_iff in E1. intro I. apply mem_spec in I. congruence.
Qed.
Lemma both_spec f : forallb f both = true -> forall b, f b = true.
Proof. cbn. rewrite !andb_true_iff. intros (E1 & E2 & _) [|]; assumption. Qed.
Lemma table_ext (b : string -> bool) x : In x tested -> b x = table (b "window_len"%string) (b "N"%string) (b "processes"%string) (b "multiply_data"%string) x.
Proof. intros [<-|[<-|[<-|[<-|[]]]]]; reflexivity. Qed.
Lemma osrc_eqb_spec a b : osrc_eqb a b = true -> a = b.
Proof.
  destruct a as [[x| |x]|], b as [[y| |y]|]; cbn; try congruence; intro E.
  - apply String.eqb_eq in E. congruence.
  - apply Z.eqb_eq in E. congruence.
Qed.

Section Main.
Variable F : Type.
Variable show_float : F -> text.
Variable read_float : text -> option F.
Variable literal : string -> F.
Variable of_int : Z -> F.
Hypothesis read_show : forall x, read_float (show_float x) = Some x.
Hypothesis read_int : forall z, read_float (show_int z) = Some (of_int z).

Lemma get_as_ns opts g o : NoDup (map o_name opts) -> In o opts -> get (as_ns F opts g) (o_name o) = Some (g o).
Proof.
  intro D. induction opts as [|p opts IH]; cbn; [easy|]. inversion D as [|? ? D1 D2]; subst.
  intros [->|I]; [now rewrite String.eqb_refl|].
  destruct (String.eqb_spec (o_name p) (o_name o)) as [E|_]; [|now apply IH].
  exfalso. apply D1. rewrite E. now apply in_map.
Qed.
Lemma get_in ns x v : get (F := F) ns x = Some v -> In (x, v) ns.
Proof.
  induction ns as [|[y w] ns IH]; cbn; [discriminate|]. destruct (String.eqb_spec y x) as [->|_]; intro E; [left; congruence|right; auto].
Qed.
Definition good (opts : list opt) (ns : namespace F) : Prop :=
  exists g, ns = as_ns F opts g /\ forall o, In o opts -> fits F (o_type o) (g o).
Lemma convert_fits ty t v : convert F read_float ty t = Some v -> fits F ty v.
Proof.
  destruct ty; cbn.
  - destruct (py_int t); intro E; [|discriminate]. injection E as <-. exact I.
  - destruct (read_float t); cbn; intro E; [|discriminate]. injection E as <-. exact I.
  - intro E. injection E as <-. exact I.
Qed.
Lemma set_good opts ns o v : NoDup (map o_name opts) -> good opts ns -> In o opts -> fits F (o_type o) v -> good opts (set F (o_name o) v ns).
Proof.
  intros D (g & -> & G) I Fv. rewrite (set_as_ns F opts g o v I). eexists. split; [reflexivity|].
  intros o' I'. cbv beta. destruct (String.eqb_spec (o_name o') (o_name o)) as [E|_]; [|now apply G].
  now rewrite (same_name opts D o' o I' I E).
Qed.
Lemma parse_good opts argv : NoDup (map o_name opts) -> forall ns ns', good opts ns -> parse_from F read_float opts ns argv = Some ns' -> good opts ns'.
Proof.
  intro D. induction argv as [argv IH] using (well_founded_induction (well_founded_ltof _ (@length text))). intros ns ns' G.
  destruct argv as [|a rest]; cbn [parse_from]; [congruence|].
  destruct (classify opts a) as [|o [e|]|] eqn:Ec; try discriminate; pose proof (classify_in opts _ _ _ Ec) as Io.
  - destruct (convert F read_float (o_type o) e) as [v|] eqn:Ev; [|discriminate].
    apply IH; [unfold ltof; cbn; lia|]. apply set_good; auto. now apply convert_fits in Ev.
  - destruct rest as [|b rest']; [discriminate|]. destruct (classify opts b); try discriminate.
    destruct (convert F read_float (o_type o) b) as [v|] eqn:Ev; [|discriminate].
    apply IH; [unfold ltof; cbn; lia|]. apply set_good; auto. now apply convert_fits in Ev.
Qed.
Lemma defaults_good opts : forallb fit_default opts = true -> good opts (defaults F literal opts).
Proof.
  intro E. exists (fun o => default_value F literal (o_default o)). split; [reflexivity|].
  intros o I. rewrite forallb_forall in E. specialize (E o I). unfold fit_default in E.
  destruct (o_type o), (o_default o); cbn; try discriminate; exact Logic.I.
Qed.
Lemma set_absent x v ns : (forall w, ~ In (x, w) ns) -> set F x v ns = ns.
Proof.
  intro A. unfold set. rewrite <- (map_id ns) at 2. apply map_ext_in. intros [y w] Iy. cbn [fst].
  destruct (String.eqb_spec y x) as [->|]; [|reflexivity]. exfalso. now apply (A w).
Qed.
Lemma in_force_good s ns : check s = true -> good (s_options s) ns -> good (s_options s) (in_force F s ns).
Proof.
  unfold check. rewrite !andb_true_iff. intros ((((E1 & E2) & E3) & E4) & E5) G. apply nodupb_spec in E1.
  unfold in_force. destruct (s_single s); [|exact G].
  destruct (get ns "n_clusters") as [[[|[p|p|]|p]|x|t]|]; try exact G.
  destruct (existsb (fun o => String.eqb (o_name o) "classifier_train") (s_options s)) eqn:Ex.
  - apply existsb_exists in Ex as (o & Io & En). rewrite forallb_forall in E3. specialize (E3 o Io). rewrite En in E3. cbn in E3.
    apply String.eqb_eq in En. rewrite <- En. apply set_good; auto. destruct (o_type o); try discriminate. exact I.
  - rewrite set_absent; [exact G|]. intros w Iw. destruct G as (g & -> & _). unfold as_ns in Iw. apply in_map_iff in Iw as (o & Eo & Io).
    injection Eo as Eo _. assert (existsb (fun o => String.eqb (o_name o) "classifier_train") (s_options s) = true) as K.
    { apply existsb_exists. exists o. split; [exact Io|]. now apply String.eqb_eq. }
    congruence.
Qed.
Lemma get_set y w ns x : get (set F y w ns) x = if String.eqb y x then option_map (fun _ => w) (get ns x) else get ns x.
Proof.
  induction ns as [|[z u] ns IH]; cbn [set map get fst]; [now destruct (String.eqb y x)|]. fold (set F y w ns).
  destruct (String.eqb_spec z y) as [->|Nz]; cbn [get]; rewrite IH.
  - now destruct (String.eqb y x).
  - destruct (String.eqb_spec z x) as [->|]; [|reflexivity]. destruct (String.eqb_spec y x) as [->|]; [congruence|reflexivity].
Qed.
Lemma in_force_get s ns x v : get (in_force F s ns) x = Some v -> get ns x = Some v \/ v = VInt 0.
Proof.
  unfold in_force. destruct (s_single s); [|tauto]. destruct (get ns "n_clusters") as [[[|[p|p|]|p]|y|t]|]; try tauto.
  rewrite get_set. destruct (String.eqb "classifier_train" x); [|tauto]. destruct (get ns x); cbn; [|discriminate]. intro E. right. congruence.
Qed.

Lemma fold_assign ns n l f o :
  fold_left (assign F of_int ns n) l f o = match last_src (o_name o) l with Some s => src_value F of_int ns n o s | None => f o end.
Proof.
  unfold last_src. rewrite <- fold_left_rev_right. rewrite <- fold_left_rev_right.
  induction (rev l) as [|[x s] r IH]; [reflexivity|]. cbn [fold_right fst snd]. unfold assign at 1. cbn [fst snd].
  destruct (String.eqb (o_name o) x); [reflexivity|exact IH].
Qed.

Lemma plain_solid t : plain t -> t <> [] /\ Forall (fun c => c <> 32%N) t.
Proof. intros [H1 H2]. split; [exact H1|]. eapply Forall_impl; [|exact H2]. unfold plain_char. intros; lia. Qed.

Theorem replay_spec s argv ns n file :
  check s = true -> parse_args F read_float literal (s_options s) argv = Some ns ->
  (forall x v, get ns x = Some v -> printable F show_float v) -> plain file ->
  replay F read_float literal s (record F show_float s ns n file) =
  Some (file, if accepted F s (in_force F s ns) then Some (expected F literal of_int s (in_force F s ns) n) else None).
Proof.
  intros Ck Pa Pr Pf.
  assert (Gd : good (s_options s) (in_force F s ns)).
  { apply in_force_good; [exact Ck|]. pose proof Ck as E. unfold check in E. rewrite !andb_true_iff in E. destruct E as ((((E1 & E2) & E3) & E4) & E5).
    eapply parse_good; [now apply nodupb_spec| |exact Pa]. now apply defaults_good. }
  assert (Pr' : forall x v, get (in_force F s ns) x = Some v -> printable F show_float v).
  { intros x v E. apply in_force_get in E as [E| ->]; [eauto|exact I]. }
  unfold replay, record. set (ns' := in_force F s ns) in *.
  pose proof Ck as E. unfold check in E. rewrite !andb_true_iff in E. destruct E as ((((E1 & E2) & E3) & E4) & E5).
  apply nodupb_spec in E1. rename Gd into G. destruct G as (g & Eg & Fg).
  assert (Wr : forall v, printable F show_float v -> writable F show_float v).
  { intros [z|x|t] P; [split; [apply show_int_plain|apply show_int_argument]|exact P|exact P]. }
  assert (Ty : forall o, In o (s_options s) -> exists v, get ns' (o_name o) = Some v /\ fits F (o_type o) v /\ writable F show_float v).
  { intros o Io. exists (g o). assert (Q : get ns' (o_name o) = Some (g o)) by (rewrite Eg; now apply get_as_ns).
    split; [exact Q|]. split; [now apply Fg|]. apply Wr. eapply Pr'. exact Q. }
  rewrite (record_text F show_float ns' n file (s_command s)).
  set (b := table (positive ns' "window_len") (positive ns' "N") (positive ns' "processes") (positive ns' "multiply_data")).
  assert (Rb : resolve (positive ns') (s_command s) = resolve b (s_command s)).
  { apply resolve_ext. intros x Ix. rewrite forallb_forall in E4. specialize (E4 x Ix). apply mem_spec in E4. now apply table_ext. }
  rewrite Rb.
  assert (Cb : check_at s b = true).
  { unfold b. generalize (positive ns' "window_len"), (positive ns' "N"), (positive ns' "processes"), (positive ns' "multiply_data").
    intros w nn p m. exact (both_spec _ (both_spec _ (both_spec _ (both_spec _ E5 w) nn) p) m). }
  unfold check_at in Cb. apply andb_true_iff in Cb as [Ch Cb].
  assert (So : Forall (solid F show_float ns' n file) (holes (resolve b (s_command s)))).
  { unfold holes_ok in Ch. rewrite forallb_forall in Ch. apply Forall_forall. intros h Ih. specialize (Ch h Ih).
    apply plain_solid. destruct h as [x| |]; cbn [hole_text]; [|apply show_int_plain|exact Pf].
    apply mem_spec in Ch. apply in_map_iff in Ch as (o & <- & Io). destruct (Ty o Io) as (v & Gv & _ & Wv & _).
    unfold show_arg. rewrite Gv. exact Wv. }
  assert (Ws : words (word_text F show_float ns' n file (resolve b (s_command s))) = map (word_text F show_float ns' n file) (swords (resolve b (s_command s))))
    by exact (words_swords F show_float ns' n file _ So [] (Forall_nil _)).
  rewrite Ws. fold (swords (resolve b (s_command s))).
  destruct (swords (resolve b (s_command s))) as [|p [|f rest]]; try discriminate.
  destruct f as [|[c|[x| |]] [|? ?]]; try discriminate.
  apply andb_true_iff in Cb as [Cp Cb]. destruct (lit_of p) as [t|] eqn:Lp; [|discriminate].
  cbn [map]. rewrite (lit_of_text F show_float ns' n file p t Lp), Cp.
  assert (Tf : word_text F show_float ns' n file [H HFile] = file) by (cbn; apply app_nil_r). rewrite Tf.
  do 2 f_equal.
  pose proof (sparse_sound F show_float read_float of_int read_show read_int ns' n file (s_options s) Ty E1 rest
                (fun o => default_value F literal (o_default o))) as So'.
  assert (Ac : accepted F s ns' = accepts (s_file s) b).
  { unfold accepted, accepts, b. reflexivity. }
  rewrite Ac. unfold parse_args. change (defaults F literal (s_options s)) with (as_ns F (s_options s) (fun o => default_value F literal (o_default o))).
  destruct (sparse (s_options s) rest) as [l| |]; destruct (accepts (s_file s) b); try discriminate; cbn [sound] in So'.
  - rewrite So'. f_equal. unfold expected, as_ns. apply map_ext_in. intros o Io. f_equal. rewrite fold_assign.
    rewrite forallb_forall in Cb. specialize (Cb o Io). apply osrc_eqb_spec in Cb. rewrite Cb.
    destruct (Ty o Io) as (v & Gv & _ & _).
    assert (Sp : spec_src (s_file s) b (o_name o) = spec_src (s_file s) (positive ns') (o_name o)).
    { unfold spec_src. destruct (fate_of (s_file s) (o_name o)) eqn:Fo; try reflexivity.
      all: assert (It : In (o_name o) tested);
        [ unfold fate_of in Fo;
          destruct (String.eqb_spec (o_name o) "N") as [Eo|]; [rewrite Eo; cbn; tauto|]; destruct (String.eqb_spec (o_name o) "processes") as [Eo|]; [rewrite Eo; cbn; tauto|];
          destruct (String.eqb_spec (o_name o) "window_len") as [Eo|]; [rewrite Eo; cbn; tauto|]; destruct (String.eqb_spec (o_name o) "multiply_data") as [Eo|]; [rewrite Eo; cbn; tauto|];
          destruct (String.eqb (o_name o) "cluster"); [destruct (existsb _ _) in Fo; discriminate|];
          destruct (String.eqb (o_name o) "separate_models"); [destruct (existsb _ _) in Fo; discriminate|]; discriminate
        | unfold b; rewrite <- table_ext by exact It; try reflexivity ].
      all: rewrite <- table_ext by (cbn; tauto); reflexivity. }
    rewrite Sp. unfold expected_value, spec_src. cbv zeta. rewrite Gv.
    destruct (fate_of (s_file s) (o_name o)); cbn [src_value]; try rewrite Gv; try reflexivity.
    + destruct (positive ns' (o_name o)); cbn [src_value]; [now rewrite Gv|reflexivity].
    + destruct (positive ns' (o_name o)); cbn [src_value]; [now rewrite Gv|reflexivity].
    + destruct (positive ns' (o_name o)); reflexivity.
    + destruct (positive ns' (o_name o) && positive ns' "N")%bool; cbn [src_value]; [now rewrite Gv|reflexivity].
  - exact So'.
Qed.
End Main.

From Verif.Model Require Import Commands.
Lemma check_all : forallb check scripts = true.
Proof. vm_compute. reflexivity. Qed.

(** ** Consequences *)
Definition bad : list string :=
  ["runs/HC_eilat_July_2018/classifying_entropy_decoder_over_awgn_channel.py";
   "runs/HC_eilat_July_2018/simulated_data_pretrained_model.py";
   "runs/Feb_2022/experimental_mavlink_based.py";
   "runs/Feb_2022/experimental_data_unified_decoder.py"; "runs/Feb_2023/experimental_data_unified_decoder.py";
   "runs/Feb_2023/experimental_data_run_feb_23.py"; "runs/Feb_2023/experimental_mavlink_based.py";
   "runs/HC_eilat_July_2018/simulated_data_entropy_bitwise_decoder_weighted_model.py";
   "runs/HC_eilat_July_2018/simulated_data_entropy_bitwise_decoder_weighted_model_averaged.py"]%string.
Definition harmless (file : string) (o : opt) : bool :=
  match fate_of file (o_name o) with
  | Same => true
  | Floor => otype_eqb (o_type o) TInt
  | IfPositive | WordCount => otype_eqb (o_type o) TInt && match o_default o with DInt z => (z <=? 0)%Z | _ => false end
  | Lost | IfBoth => false
  end.
Definition starts_well (s : script) : bool :=
  match s_command s with Lit p :: Val File :: _ => String.eqb p "python " | _ => false end.
Lemma harmless_all : forallb (fun s => mem bad (s_file s) || (accepts (s_file s) (fun _ => true) && accepts (s_file s) (fun _ => false) && forallb (harmless (s_file s)) (s_options s))) scripts = true.
Proof. vm_compute. reflexivity. Qed.
Lemma starts_all : forallb starts_well scripts = true.
Proof. vm_compute. reflexivity. Qed.

Section More.
Variable F : Type.
Variable show_float : F -> text.
Variable read_float : text -> option F.
Variable literal : string -> F.
Variable of_int : Z -> F.

Lemma replay_space s ns n a c : starts_well s = true -> plain a ->
  exists r, replay F read_float literal s (record F show_float s ns n (a ++ 32%N :: c)) = Some (a, r).
Proof.
  intros Sw Pa. unfold starts_well in Sw. unfold record, replay.
  destruct (s_command s) as [|[p| |] [|[|[| | |]|] rest]]; try discriminate. apply String.eqb_eq in Sw as ->.
  cbn [flat_map render_item show_source].
  rewrite <- (app_assoc a). cbn [app].
  set (r := c ++ flat_map _ rest).
  assert (W : words (ascii "python " ++ a ++ 32%N :: r) = ascii "python" :: a :: words r).
  { unfold words. change (ascii "python ") with (ascii "python" ++ [32%N]). rewrite <- app_assoc.
    rewrite words_push by (repeat (constructor; [discriminate|]); constructor).
    cbn [app words_from]. change ((32 =? 32)%N) with true. cbv iota.
    destruct (plain_solid a Pa) as [P1 P2].
    change (rev (ascii "python") ++ []) with (rev (ascii "python")).
    assert (E : words_from [] (a ++ 32%N :: r) = a :: words_from [] r).
    { rewrite words_push by exact P2. rewrite app_nil_r. cbn [words_from]. change ((32 =? 32)%N) with true. cbv iota. rewrite rev_involutive.
      destruct (rev a) eqn:Ra; [|reflexivity]. exfalso. apply P1. now rewrite <- (rev_involutive a), Ra. }
    rewrite E. reflexivity. }
  rewrite W. eexists. reflexivity.
Qed.

Lemma in_force_id_get s ns x :
  get (in_force F s ns) x =
  if s_single s && match get ns "n_clusters" with Some (VInt 1) => true | _ => false end && String.eqb "classifier_train" x
  then option_map (fun _ => VInt 0) (get ns x) else get ns x.
Proof.
  unfold in_force. destruct (s_single s); [|reflexivity].
  destruct (get ns "n_clusters") as [[[|[p|p|]|p]|y|t]|]; try reflexivity.
  rewrite get_set. reflexivity.
Qed.

Lemma same_replay s ns n o :
  good F (s_options s) ns -> check s = true -> forallb (harmless (s_file s)) (s_options s) = true -> In o (s_options s) ->
  (o_name o = "N"%string -> positive ns "N" = false) -> In (o_name o) (map o_name (s_options s)) ->
  same_setting of_int (get ns (o_name o)) (get (expected F literal of_int s ns n) (o_name o)).
Proof.
  intros (g & Eg & Fg) Ck Hm Io Hn _. unfold check in Ck. rewrite !andb_true_iff in Ck. destruct Ck as ((((E1 & E2) & E3) & E4) & E5).
  apply nodupb_spec in E1. rewrite forallb_forall in Hm. specialize (Hm o Io).
  change (expected F literal of_int s ns n) with (as_ns F (s_options s) (expected_value F literal of_int s ns n)).
  rewrite (get_as_ns F (s_options s) _ o E1 Io).
  assert (Gv : get ns (o_name o) = Some (g o)) by (rewrite Eg; now apply get_as_ns).
  specialize (Fg o Io). unfold expected_value. cbv zeta. rewrite Gv. unfold harmless in Hm.
  assert (Rr : same_setting of_int (Some (g o)) (Some (reread F of_int (o_type o) (g o)))).
  { destruct (o_type o), (g o) as [z|x|t]; cbn in *; try tauto; try (left; reflexivity). right; left. eauto. }
  assert (Np : o_type o = TInt -> forall z, (z <= 0)%Z -> positive ns (o_name o) = false -> same_setting of_int (Some (g o)) (Some (VInt z))).
  { intros To z Hz P. unfold positive in P. rewrite Gv in P. rewrite To in Fg. destruct (g o) as [y| |]; cbn in Fg; try tauto.
    right; right. exists y, z. repeat split; auto. apply Z.ltb_ge in P. exact P. }
  assert (Ty : otype_eqb (o_type o) TInt = true -> o_type o = TInt) by (destruct (o_type o); [auto|discriminate|discriminate]).
  destruct (fate_of (s_file s) (o_name o)) eqn:Fo; try discriminate.
  - exact Rr.
  - destruct (positive ns (o_name o)) eqn:P; [exact Rr|]. apply Np; [now apply Ty|lia|reflexivity].
  - apply andb_true_iff in Hm as [H1 H2]. destruct (positive ns (o_name o)) eqn:P; [exact Rr|].
    destruct (o_default o) as [z| |]; try discriminate. apply Np; [now apply Ty|now apply Z.leb_le|reflexivity].
  - apply andb_true_iff in Hm as [H1 H2]. assert (En : o_name o = "N"%string).
    { unfold fate_of in Fo. destruct (String.eqb_spec (o_name o) "N"); [assumption|].
      destruct (String.eqb (o_name o) "processes"); [destruct (String.eqb _ _) in Fo; discriminate|].
      destruct (String.eqb (o_name o) "window_len"); [destruct (existsb _ _) in Fo; discriminate|].
      destruct (String.eqb (o_name o) "multiply_data"); [destruct (String.eqb _ _) in Fo; discriminate|].
      destruct (String.eqb (o_name o) "cluster"); [destruct (existsb _ _) in Fo; discriminate|].
      destruct (String.eqb (o_name o) "separate_models"); [destruct (existsb _ _) in Fo; discriminate|discriminate]. }
    specialize (Hn En). rewrite <- En in Hn. rewrite Hn.
    destruct (o_default o) as [z| |]; try discriminate. apply Np; [now apply Ty|now apply Z.leb_le|exact Hn].
Qed.
End More.

Lemma buffers_count split m n available : (0 < n)%Z -> (0 < available)%Z -> (split = 1 \/ split = 2)%Z ->
  let w := words_of split m (buffers n available) in
  buffers w available = buffers n available <-> (split = 1 /\ m <= 0)%Z \/ (available <= n)%Z.
Proof.
  intros Hn Ha Hs w. unfold w, words_of, buffers. destruct (Z.ltb_spec 0 n); [|lia].
  set (t := Z.min n available). assert (Ht : (0 < t <= available)%Z) by (unfold t; lia).
  assert (P : (1 <= 2 ^ Z.max 0 m)%Z) by (pose proof (Z.pow_pos_nonneg 2 (Z.max 0 m)); lia).
  assert (P2 : (0 < m)%Z -> (2 <= 2 ^ Z.max 0 m)%Z).
  { intro Hm. rewrite Z.max_r by lia. replace m with (Z.succ (m - 1)) by lia. rewrite Z.pow_succ_r by lia.
    pose proof (Z.pow_pos_nonneg 2 (m - 1)); lia. }
  assert (P0 : (m <= 0)%Z -> (2 ^ Z.max 0 m = 1)%Z) by (intro Hm; rewrite Z.max_l by lia; reflexivity).
  set (k := (2 ^ Z.max 0 m)%Z) in *.
  destruct (Z.ltb_spec 0 (split * t * k)) as [Hp|Hp].
  2:{ exfalso. destruct Hs as [-> | -> ]; nia. }
  split.
  - intro E. destruct (Z.le_gt_cases available n) as [|Hlt]; [now right|left].
    assert (Et : t = n) by (unfold t; lia).
    assert (Ew : (split * t * k = t)%Z) by lia.
    destruct Hs as [-> | -> ]; [|nia]. split; [reflexivity|]. destruct (Z.le_gt_cases m 0) as [|Hm]; [assumption|]. specialize (P2 ltac:(lia)). nia.
  - intros [[-> Hm]|Hle].
    + rewrite P0 by assumption. lia.
    + assert (t = available) as Et by (unfold t; lia). rewrite Et in *. apply Z.min_r. destruct Hs as [-> | -> ]; nia.
Qed.

Section Again.
Variable F : Type.
Variable show_float : F -> text.
Variable read_float : text -> option F.
Variable literal : string -> F.
Variable of_int : Z -> F.
Lemma same_again s ns n o :
  good F (s_options s) ns -> check s = true -> forallb (harmless (s_file s)) (s_options s) = true -> In o (s_options s) ->
  (o_name o = "N"%string -> positive ns "N" = false) ->
  let ns1 := in_force F s ns in
  same_setting of_int (get ns1 (o_name o)) (get (in_force F s (expected F literal of_int s ns1 n)) (o_name o)).
Proof.
  intros G Ck Hm Io Hn ns1.
  assert (G1 : good F (s_options s) ns1) by now apply in_force_good.
  assert (Hn1 : forall o, In o (s_options s) -> (o_name o = "N"%string -> positive ns1 "N" = false) ->
    same_setting of_int (get ns1 (o_name o)) (get (expected F literal of_int s ns1 n) (o_name o))).
  { intros o' Io' H'. apply same_replay; auto. now apply in_map. }
  assert (PN : positive ns1 "N" = positive ns "N").
  { unfold positive, ns1. rewrite in_force_id_get. rewrite andb_false_r. reflexivity. }
  rewrite (in_force_id_get F s (expected F literal of_int s ns1 n)).
  destruct (s_single s && match get (expected F literal of_int s ns1 n) "n_clusters" with Some (VInt 1) => true | _ => false end
            && String.eqb "classifier_train" (o_name o))%bool eqn:E; [|apply Hn1; [exact Io|intro K; rewrite PN; auto]].
  apply andb_true_iff in E as [E Eo]. apply andb_true_iff in E as [Es En]. apply String.eqb_eq in Eo. rewrite <- Eo in *.
  assert (Gn : get (expected F literal of_int s ns1 n) "n_clusters" = Some (VInt 1)).
  { destruct (get (expected F literal of_int s ns1 n) "n_clusters") as [[[|[p|p|]|p]|y|t]|]; try discriminate. reflexivity. }
  assert (In "n_clusters"%string (map o_name (s_options s))) as Inc.
  { apply get_in in Gn. unfold expected in Gn. apply in_map_iff in Gn as (o' & Eo' & Io'). injection Eo' as Eo' _. rewrite <- Eo'. now apply in_map. }
  apply in_map_iff in Inc as (o' & Eo' & Io').
  assert (Sn : same_setting of_int (get ns1 "n_clusters") (Some (VInt 1))).
  { rewrite <- Gn, <- Eo'. apply Hn1; [exact Io'|]. rewrite Eo'. discriminate. }
  assert (Gc : get ns1 "n_clusters" = Some (VInt 1)).
  { destruct Sn as [Sn|[(z & _ & Sn)|(x & y & _ & Sn & _ & Hy)]]; [exact Sn|discriminate|]. injection Sn as <-. lia. }
  unfold ns1 in Gc. rewrite in_force_id_get, andb_false_r in Gc.
  assert (G0 : exists v, get ns "classifier_train" = Some v).
  { destruct G as (g & -> & _). exists (g o). rewrite Eo. apply get_as_ns; [|exact Io]. unfold check in Ck. rewrite !andb_true_iff in Ck.
    destruct Ck as ((((E1 & _) & _) & _) & _). now apply nodupb_spec. }
  destruct G0 as (v & G0).
  assert (C1 : get ns1 "classifier_train" = Some (VInt 0)).
  { unfold ns1. rewrite in_force_id_get, Es, Gc, String.eqb_refl. cbn [andb]. rewrite G0. reflexivity. }
  assert (C2 : exists w, get (expected F literal of_int s ns1 n) "classifier_train" = Some w).
  { unfold expected. exists (expected_value F literal of_int s ns1 n o). rewrite Eo.
    change (map (fun o => (o_name o, expected_value F literal of_int s ns1 n o)) (s_options s)) with (as_ns F (s_options s) (expected_value F literal of_int s ns1 n)).
    apply get_as_ns; [|exact Io]. unfold check in Ck. rewrite !andb_true_iff in Ck.
    destruct Ck as ((((E1 & _) & _) & _) & _). now apply nodupb_spec. }
  destruct C2 as (w & C2). rewrite C1, C2. now left.
Qed.
End Again.
