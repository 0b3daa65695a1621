(** An analysis of imports with modules which are not complete, and its soundness. *)
From Coq Require Import String List Bool Arith Lia.
From Verif Require Import Model.Imports Model.ImportsTable Spec.ImportsSpec.
Import ListNotations.
Local Open Scope string_scope.
Local Open Scope list_scope.

Notation T := modules.
Definition quiet (l : list bool) : Prop := Forall (fun b => b = false) l.

(** ** sys.modules *)
Lemma names_bind k m xs s : names_of k (bind m xs s) = if String.eqb k m then option_map (app xs) (names_of k s) else names_of k s.
Proof.
  unfold names_of, bind. cbn [mods]. induction (mods s) as [|[n ns] l IH]; cbn [map find]; [destruct (k =? m); reflexivity|]. cbn [fst].
  destruct (String.eqb_spec n m) as [->|N]; cbn [fst snd].
  - destruct (String.eqb_spec m k) as [->|]; [rewrite String.eqb_refl; reflexivity|exact IH].
  - destruct (String.eqb_spec n k) as [->|]; [|exact IH]. destruct (String.eqb_spec k m); [contradiction|reflexivity].
Qed.
Lemma names_enter k m s : names_of k (enter m s) = if String.eqb k m then Some [] else names_of k s.
Proof. unfold names_of, enter. cbn [mods find fst]. rewrite (String.eqb_sym m k). destruct (k =? m); reflexivity. Qed.
Lemma names_leave k m s : names_of k (leave m s) = if String.eqb k m then None else names_of k s.
Proof.
  unfold names_of, leave. cbn [mods]. induction (mods s) as [|[n ns] l IH]; cbn [filter find fst]; [destruct (k =? m); reflexivity|].
  destruct (String.eqb_spec n m) as [->|N]; cbn [negb].
  - rewrite (String.eqb_sym m k). destruct (k =? m) eqn:E; [exact IH|exact IH].
  - cbn [find fst]. destruct (String.eqb_spec n k) as [->|]; [|exact IH]. destruct (String.eqb_spec k m); [contradiction|reflexivity].
Qed.
Lemma loaded_true m s : loaded m s = true <-> names_of m s <> None.
Proof. unfold loaded. destruct (names_of m s); split; congruence. Qed.

(** ** The analysis: modules which are not complete with names they surely have; all others are complete or not there. *)
Definition stack := list (string * list string).
Definition lookup (m : string) (st : stack) : option (list string) := match find (fun e => String.eqb (fst e) m) st with Some e => Some (snd e) | None => None end.
Definition mem (x : string) (l : list string) : bool := existsb (String.eqb x) l.
Lemma mem_In x l : mem x l = true <-> In x l.
Proof. unfold mem. rewrite existsb_exists. split; [intros (y & I & E); apply String.eqb_eq in E; congruence|intros I; exists x; rewrite String.eqb_refl; auto]. Qed.
Lemma lookup_cons m low st k : lookup k ((m, low) :: st) = if String.eqb k m then Some low else lookup k st.
Proof. unfold lookup. cbn [find fst]. rewrite (String.eqb_sym m k). destruct (k =? m); reflexivity. Qed.

Definition has (st : stack) (m x : string) : bool :=
  match lookup m st with Some low => mem x low | None => match file_of T m with Some e => mem x (provides e) | None => false end end.
Fixpoint checkf (me : string) (st : stack) (low : list string) (m : string) (xs : list (string * string)) : bool :=
  match xs with [] => true | (x, y) :: xs => if has ((me, low) :: st) m x then checkf me st (y :: low) m xs else false end.
Fixpoint checkb (chk : stack -> string -> bool) (me : string) (st : stack) (low : list string) (l : list istmt) : bool :=
  match l with
  | [] => true
  | Other xs :: l => checkb chk me st (xs ++ low) l
  | Import m x :: l => if chk ((me, low) :: st) m then checkb chk me st (x :: low) l else false
  | From m xs :: l => if chk ((me, low) :: st) m then if checkf me st low m xs then checkb chk me st (rev (map snd xs) ++ low) l else false else false
  end.
(** A package which is there is complete unless it is on the stack. *)
Definition with_parent (e : modl) (st : stack) : stack :=
  match m_parent e with
  | None => st
  | Some p => match lookup p st with Some _ => st | None => match file_of T p with Some q => (p, provides q) :: st | None => st end end
  end.
Fixpoint check (fuel : nat) (st : stack) (m : string) : bool :=
  match fuel with
  | O => false
  | S n => match lookup m st with
           | Some _ => true
           | None => match file_of T m with
                     | None => false
                     | Some e => if match m_parent e with None => true | Some p => check n st p end then checkb (check n) m (with_parent e st) [] (m_body e) else false
                     end
           end
  end.

Lemma checkb_mono (c d : stack -> string -> bool) : (forall st m, c st m = true -> d st m = true) -> forall l me st low, checkb c me st low l = true -> checkb d me st low l = true.
Proof.
  intros H l. induction l as [|[xs|m x|m xs] l IH]; intros me st low; cbn [checkb]; auto.
  - destruct (c ((me, low) :: st) m) eqn:E; [|discriminate]. rewrite (H _ _ E). apply IH.
  - destruct (c ((me, low) :: st) m) eqn:E; [|discriminate]. rewrite (H _ _ E). destruct (checkf me st low m xs); [apply IH|discriminate].
Qed.
Lemma check_S n : forall st m, check n st m = true -> check (S n) st m = true.
Proof.
  induction n as [|n IH]; [discriminate|]. intros st m H. cbn [check] in H. change (check (S (S n)) st m) with
    (match lookup m st with Some _ => true | None => match file_of T m with None => false | Some e => if match m_parent e with None => true | Some p => check (S n) st p end then checkb (check (S n)) m (with_parent e st) [] (m_body e) else false end end).
  destruct (lookup m st); [reflexivity|]. destruct (file_of T m) as [e|]; [|discriminate].
  destruct (match m_parent e with Some p => check n st p | None => true end) eqn:P; [|discriminate].
  assert (P' : match m_parent e with Some p => check (S n) st p | None => true end = true) by (destruct (m_parent e); [apply IH; exact P|reflexivity]).
  rewrite P'. exact (checkb_mono _ _ IH _ _ _ _ H).
Qed.
Lemma check_mono n k st m : n <= k -> check n st m = true -> check k st m = true.
Proof. induction 1 as [|k L IH]; [auto|]. intros H. apply check_S. auto. Qed.

(** ** What holds of sys.modules *)
Definition allowed (e : modl) (x : string) : Prop := In x (provides e) \/ In x (submodules (m_name e)).
Definition Inv (st : stack) (s : istate) : Prop :=
  (forall m ns, names_of m s = Some ns -> exists e, file_of T m = Some e /\ (forall x, In x ns -> allowed e x) /\
     forall x, In x (match lookup m st with Some low => low | None => provides e end) -> In x ns) /\
  (forall m low, lookup m st = Some low -> names_of m s <> None).

Lemma file_of_name m e : file_of T m = Some e -> m_name e = m.
Proof. intros H. apply find_some in H as [_ H]. apply String.eqb_eq. exact H. Qed.
Lemma file_of_In m e : file_of T m = Some e -> In e T.
Proof. intros H. apply find_some in H as [H _]. exact H. Qed.
Lemma submodule_In e p : In e T -> m_parent e = Some p -> In (m_last e) (submodules p).
Proof. intros I P. unfold submodules. apply in_map. apply filter_In. split; [exact I|]. rewrite P. apply String.eqb_refl. Qed.

Lemma inv_same st s s' : (forall k, names_of k s' = names_of k s) -> Inv st s -> Inv st s'.
Proof. intros E [A B]. split; [intros m ns; rewrite E; apply A|intros m low; rewrite E; apply B]. Qed.
Lemma inv_bind_other st m xs s e : Inv st s -> file_of T m = Some e -> (forall x, In x xs -> allowed e x) -> Inv st (bind m xs s).
Proof.
  intros [A B] F X. split.
  - intros k ns. rewrite names_bind. destruct (String.eqb_spec k m) as [->|]; [|apply A]. destruct (names_of m s) as [ns'|] eqn:N; [|discriminate]. cbn [option_map]. intros E. injection E as <-.
    destruct (A m ns' N) as (e' & F' & U & L). rewrite F in F'. injection F' as <-. exists e. split; [exact F|]. split; intros x I; [apply in_app_iff in I as [I|I]; auto|apply in_app_iff; right; auto].
  - intros k low K. rewrite names_bind. specialize (B k low K). destruct (k =? m); [|exact B]. destruct (names_of k s); [discriminate|congruence].
Qed.
Lemma inv_bind_me st m low xs s e : Inv ((m, low) :: st) s -> file_of T m = Some e -> (forall x, In x xs -> allowed e x) -> Inv ((m, xs ++ low) :: st) (bind m xs s).
Proof.
  intros I F X. pose proof (inv_bind_other _ m xs s e I F X) as [A B]. split.
  - intros k ns N. rewrite lookup_cons. destruct (A k ns N) as (e' & F' & U & L). exists e'. split; [exact F'|]. split; [exact U|]. rewrite lookup_cons in L.
    destruct (String.eqb_spec k m) as [->|]; [|exact L]. intros x Q. apply in_app_iff in Q as [Q|Q]; [|apply L; exact Q]. rewrite names_bind, String.eqb_refl in N.
    destruct (names_of m s); [|discriminate]. injection N as <-. apply in_app_iff. left. exact Q.
  - intros k low'. rewrite lookup_cons. destruct (String.eqb_spec k m) as [->|N]; intros E.
    + apply (B m low). rewrite lookup_cons, String.eqb_refl. reflexivity.
    + apply (B k low'). rewrite lookup_cons. destruct (String.eqb_spec k m); [contradiction|exact E].
Qed.
Lemma inv_chance st s b s' : chance s = (b, s') -> Inv st s -> Inv st s' /\ (quiet (faults s) -> b = false /\ quiet (faults s')).
Proof.
  unfold chance. intros E I. destruct (faults s) as [|c l] eqn:F; injection E as <- <-.
  - split; [exact I|]. intros _. rewrite F. split; [reflexivity|constructor].
  - split; [apply (inv_same st s); [reflexivity|exact I]|]. intros Q. inversion Q; subst. cbn [faults]. auto.
Qed.
Lemma inv_has st m x s ns : Inv st s -> names_of m s = Some ns -> has st m x = true -> In x ns.
Proof.
  intros [A _] N H. destruct (A m ns N) as (e & F & _ & L). unfold has in H. destruct (lookup m st) as [low|]; [apply L; apply mem_In; exact H|].
  rewrite F in H. apply L. apply mem_In. exact H.
Qed.

Lemma inv_with_parent e st s : Inv st s -> (forall p, m_parent e = Some p -> names_of p s <> None) -> Inv (with_parent e st) s.
Proof.
  intros I N. unfold with_parent. destruct (m_parent e) as [p|]; [|exact I]. specialize (N p eq_refl). destruct (lookup p st) eqn:L; [exact I|].
  destruct (file_of T p) as [q|] eqn:F; [|exact I]. destruct I as [A B]. split.
  - intros k ns K. destruct (A k ns K) as (e' & F' & U & W). exists e'. split; [exact F'|]. split; [exact U|]. rewrite lookup_cons. destruct (String.eqb_spec k p) as [->|]; [|exact W].
    rewrite L in W. rewrite F in F'. injection F' as <-. exact W.
  - intros k low. rewrite lookup_cons. destruct (String.eqb_spec k p) as [->|]; [intros _; exact N|apply B].
Qed.
Lemma inv_without_parent e st s : Inv (with_parent e st) s -> Inv st s.
Proof.
  unfold with_parent. destruct (m_parent e) as [p|]; [|auto]. destruct (lookup p st) eqn:L; [auto|]. destruct (file_of T p) as [q|] eqn:F; [|auto]. intros [A B]. split.
  - intros k ns K. destruct (A k ns K) as (e' & F' & U & W). exists e'. split; [exact F'|]. split; [exact U|]. rewrite lookup_cons in W. destruct (String.eqb_spec k p) as [->|]; [|exact W].
    rewrite L. rewrite F in F'. injection F' as <-. exact W.
  - intros k low K. apply (B k low). rewrite lookup_cons. destruct (String.eqb_spec k p) as [->|]; [congruence|exact K].
Qed.

(** ** Soundness *)
Definition good (imp : string -> istate -> istate * ires) (chk : stack -> string -> bool) : Prop :=
  forall st m s s' r, chk st m = true -> Inv st s -> imp m s = (s', r) ->
    Inv st s' /\ (r = IDone \/ r = IFailed) /\ (r = IDone -> names_of m s' <> None) /\ (quiet (faults s) -> r = IDone /\ quiet (faults s')).

Section Body.
Variables (imp : string -> istate -> istate * ires) (chk : stack -> string -> bool) (me : string) (e : modl).
Hypotheses (IMP : good imp chk) (FILE : file_of T me = Some e).

Lemma fetch_sound m st : forall xs low s s' r, checkf me st low m xs = true -> Inv ((me, low) :: st) s -> names_of m s <> None -> (forall y, In y (map snd xs) -> allowed e y) ->
  fetch T imp me m xs s = (s', r) -> Inv ((me, rev (map snd xs) ++ low) :: st) s' /\ r = IDone /\ faults s' = faults s.
Proof using FILE.
  induction xs as [|[x y] xs IH]; intros low s s' r; cbn [checkf fetch map rev].
  - intros _ I _ _ E. injection E as <- <-. auto.
  - destruct (has ((me, low) :: st) m x) eqn:H; [|discriminate]. intros C I N Y E. destruct (names_of m s) as [ns|] eqn:M; [|congruence].
    assert (X : existsb (String.eqb x) ns = true) by (apply mem_In; exact (inv_has _ _ _ _ _ I M H)). rewrite X in E.
    cbn [snd] in *. rewrite <- app_assoc. cbn [app]. apply (IH (y :: low) (bind me [y] s) s' r); auto.
    + apply (inv_bind_me st me low [y] s e I FILE). intros z [<-|[]]. apply Y. left. reflexivity.
    + rewrite names_bind, M. destruct (m =? me); discriminate.
    + intros z Z. apply Y. right. exact Z.
Qed.
Lemma body_sound st : forall l low s s' r, checkb chk me st low l = true -> Inv ((me, low) :: st) s -> (forall y, In y (concat (map stmt_names l)) -> allowed e y) ->
  run_body T imp me l s = (s', r) ->
  exists low', Inv ((me, low') :: st) s' /\ (r = IDone \/ r = IFailed) /\ (r = IDone -> forall x, In x (concat (map stmt_names l)) \/ In x low -> In x low') /\
    (quiet (faults s) -> r = IDone /\ quiet (faults s')).
Proof using IMP FILE.
  induction l as [|[xs|m x|m xs] l IH]; intros low s s' r; cbn [checkb run_body map concat stmt_names].
  - intros _ I _ E. injection E as <- <-. exists low. split; [exact I|]. split; [auto|]. split; [intros _ x [[]|X]; exact X|auto].
  - intros C I Y E. destruct (chance s) as [b s1] eqn:H. destruct (inv_chance _ _ _ _ H I) as [I1 Q1]. destruct b.
    + injection E as <- <-. exists low. split; [exact I1|]. split; [auto|]. split; [discriminate|]. intros Q. destruct (Q1 Q). discriminate.
    + destruct (IH (xs ++ low) (bind me xs s1) s' r C) as (low' & A1 & A2 & A3 & A4); [|intros y Z; apply Y; apply in_app_iff; auto|exact E|].
      * apply (inv_bind_me st me low xs s1 e I1 FILE). intros z Z. apply Y. apply in_app_iff. auto.
      * exists low'. split; [exact A1|]. split; [exact A2|]. split.
        -- intros D z Z. apply (A3 D). rewrite !in_app_iff in *. tauto.
        -- intros Q. apply A4. apply Q1. exact Q.
  - destruct (chk ((me, low) :: st) m) eqn:K; [|discriminate]. intros C I Y E. destruct (imp m s) as [s1 r1] eqn:P. destruct (IMP _ _ _ _ _ K I P) as (I1 & R1 & N1 & Q1).
    destruct R1 as [->| ->].
    + destruct (IH (x :: low) (bind me [x] s1) s' r C) as (low' & A1 & A2 & A3 & A4); [|intros y Z; apply Y; right; exact Z|exact E|].
      * apply (inv_bind_me st me low [x] s1 e I1 FILE). intros z [<-|[]]. apply Y. left. reflexivity.
      * exists low'. split; [exact A1|]. split; [exact A2|]. split.
        -- intros D z Z. apply (A3 D). cbn [In app] in *. tauto.
        -- intros Q. apply A4. apply Q1. exact Q.
    + injection E as <- <-. exists low. split; [exact I1|]. split; [auto|]. split; [discriminate|]. intros Q. destruct (Q1 Q). discriminate.
  - destruct (chk ((me, low) :: st) m) eqn:K; [|discriminate]. destruct (checkf me st low m xs) eqn:KF; [|discriminate]. intros C I Y E.
    destruct (imp m s) as [s1 r1] eqn:P. destruct (IMP _ _ _ _ _ K I P) as (I1 & R1 & N1 & Q1). destruct R1 as [->| ->].
    + destruct (fetch T imp me m xs s1) as [s2 r2] eqn:FE.
      destruct (fetch_sound m st xs low s1 s2 r2 KF I1 (N1 eq_refl)) as (I2 & -> & F2); [intros y Z; apply Y; apply in_app_iff; auto|exact FE|].
      destruct (IH _ s2 s' r C I2) as (low' & A1 & A2 & A3 & A4); [intros y Z; apply Y; apply in_app_iff; auto|exact E|].
      exists low'. split; [exact A1|]. split; [exact A2|]. split.
      -- intros D z Z. apply (A3 D). rewrite !in_app_iff, <- in_rev in *. tauto.
      -- intros Q. apply A4. rewrite F2. apply Q1. exact Q.
    + injection E as <- <-. exists low. split; [exact I1|]. split; [auto|]. split; [discriminate|]. intros Q. destruct (Q1 Q). discriminate.
Qed.
End Body.

Local Opaque submodules modules.
Theorem import_sound n : good (import_module T n) (check n).
Proof.
  induction n as [|n IH]; [intros st m s s' r; discriminate|]. intros st m s s' r C I E. cbn [import_module] in E. cbn [check] in C.
  destruct (loaded m s) eqn:LD.
  { injection E as <- <-. split; [exact I|]. split; [auto|]. split; [intros _; apply loaded_true; exact LD|auto]. }
  assert (NL : lookup m st = None). { destruct (lookup m st) as [low|] eqn:L; [|reflexivity]. exfalso. destruct I as [_ B]. apply B in L. apply loaded_true in L. congruence. }
  rewrite NL in C. destruct (file_of T m) as [e|] eqn:F; [|discriminate].
  destruct (match m_parent e with Some p => check n st p | None => true end) eqn:CP; [|discriminate].
  assert (PA : exists s1 r1, match m_parent e with None => (s, IDone) | Some p => import_module T n p s end = (s1, r1) /\ Inv st s1 /\ (r1 = IDone \/ r1 = IFailed) /\
    (r1 = IDone -> forall p, m_parent e = Some p -> names_of p s1 <> None) /\ (quiet (faults s) -> r1 = IDone /\ quiet (faults s1))).
  { destruct (m_parent e) as [p|]; [|exists s, IDone; split; [reflexivity|]; split; [exact I|]; split; [auto|]; split; [discriminate|auto]].
    destruct (import_module T n p s) as [s1 r1] eqn:P. exists s1, r1. split; [reflexivity|].
    destruct (IH _ _ _ _ _ CP I P) as (? & ? & N1 & ?). split; [assumption|]. split; [assumption|]. split; [|assumption]. intros R q Q. injection Q as <-. auto. }
  destruct PA as (s1 & r1 & PE & I1 & R1 & NP & Q1). rewrite PE in E. destruct R1 as [->| ->].
  2: { injection E as <- <-. split; [exact I1|]. split; [auto|]. split; [discriminate|exact Q1]. }
  destruct (loaded m s1) eqn:LD1.
  { injection E as <- <-. split; [exact I1|]. split; [auto|]. split; [intros _; apply loaded_true; exact LD1|exact Q1]. }
  apply (inv_with_parent e) in I1; [|exact (NP eq_refl)]. set (sp := with_parent e st) in *.
  assert (NL' : lookup m sp = None). { destruct (lookup m sp) as [low|] eqn:L; [|reflexivity]. exfalso. destruct I1 as [_ B]. apply B in L. apply loaded_true in L. congruence. }
  assert (I2 : Inv ((m, []) :: sp) (enter m s1)).
  { destruct I1 as [A B]. split.
    - intros k ns. rewrite names_enter, lookup_cons. destruct (String.eqb_spec k m) as [->|N].
      + intros X. injection X as <-. exists e. split; [exact F|]. split; intros x [].
      + intros X. apply A. exact X.
    - intros k low. rewrite names_enter, lookup_cons. destruct (k =? m); [discriminate|apply B]. }
  destruct (run_body T (import_module T n) m (m_body e) (enter m s1)) as [s2 r2] eqn:RB.
  destruct (body_sound (import_module T n) (check n) m e IH F sp (m_body e) [] (enter m s1) s2 r2 C I2) as (low' & A1 & A2 & A3 & A4); [intros y Y; left; exact Y|exact RB|].
  destruct A2 as [->| ->].
  - assert (I3 : Inv st s2).
    { apply (inv_without_parent e). fold sp. destruct A1 as [A B]. split.
      - intros k ns N. destruct (A k ns N) as (e' & F' & U & L). exists e'. split; [exact F'|]. split; [exact U|]. rewrite lookup_cons in L.
        destruct (String.eqb_spec k m) as [->|]; [|exact L]. rewrite NL'. rewrite F in F'. injection F' as <-. intros x X. apply L. apply (A3 eq_refl). left. exact X.
      - intros k low K. apply (B k low). rewrite lookup_cons. destruct (String.eqb_spec k m) as [->|]; [congruence|exact K]. }
    assert (N3 : names_of m s2 <> None) by (apply (proj2 A1 m low'); rewrite lookup_cons, String.eqb_refl; reflexivity).
    destruct (m_parent e) as [p|] eqn:MP; injection E as <- <-.
    + split; [|split; [auto|split; [|intros Q; split; [reflexivity|apply A4, Q1; exact Q]]]].
      * destruct (names_of p s2) as [ns|] eqn:NP2.
        -- destruct (proj1 I3 p ns NP2) as (ep & FP & _). apply (inv_bind_other st p _ s2 ep I3 FP). intros x [<-|[]]. right. rewrite (file_of_name _ _ FP). apply submodule_In; [exact (file_of_In _ _ F)|exact MP].
        -- apply (inv_same st s2); [|exact I3]. intros k. rewrite names_bind. destruct (String.eqb_spec k p) as [->|]; [rewrite NP2; reflexivity|reflexivity].
      * intros _. rewrite names_bind. destruct (m =? p); [destruct (names_of m s2); [discriminate|congruence]|exact N3].
    + split; [exact I3|]. split; [auto|]. split; [intros _; exact N3|]. intros Q. split; [reflexivity|apply A4, Q1; exact Q].
  - injection E as <- <-. split; [|split; [auto|split; [discriminate|intros Q; destruct (A4 (proj2 (Q1 Q))); discriminate]]].
    apply (inv_without_parent e). fold sp. destruct A1 as [A B]. split.
    + intros k ns. rewrite names_leave. destruct (String.eqb_spec k m) as [->|N]; [discriminate|]. intros X. destruct (A k ns X) as (e' & F' & U & L). exists e'. split; [exact F'|]. split; [exact U|].
      rewrite lookup_cons in L. destruct (String.eqb_spec k m); [contradiction|exact L].
    + intros k low K. rewrite names_leave. destruct (String.eqb_spec k m) as [->|N]; [congruence|]. apply (B k low). rewrite lookup_cons. destruct (String.eqb_spec k m); [contradiction|exact K].
Qed.

Local Transparent submodules modules.

(** ** Sessions *)
Lemma inv_fresh l : Inv [] (fresh l).
Proof. split; [intros m ns; discriminate|intros m low; discriminate]. Qed.

Definition depth : nat := 20.
Lemma modules_checked : forallb (check depth []) module_names = true.
Proof. vm_compute. reflexivity. Qed.
Lemma module_check n m : depth <= n -> In m module_names -> check n [] m = true.
Proof. intros D I. apply (check_mono depth n); [exact D|]. exact (proj1 (forallb_forall _ _) modules_checked m I). Qed.

Lemma session_inv n : depth <= n -> forall ms s, Forall (fun m => In m module_names) ms -> Inv [] s ->
  Inv [] (fst (session T n ms s)) /\ Forall (fun r => r = IDone \/ r = IFailed) (snd (session T n ms s)) /\ length (snd (session T n ms s)) = length ms /\
  (quiet (faults s) -> Forall (fun r => r = IDone) (snd (session T n ms s)) /\ quiet (faults (fst (session T n ms s)))).
Proof.
  intros D. induction ms as [|m ms IH]; intros s A I; cbn [session].
  - split; [exact I|]. split; [constructor|]. split; [reflexivity|]. intros Q. split; [constructor|exact Q].
  - inversion A as [|? ? M A']; subst. destruct (import_module T n m s) as [s1 r] eqn:E. destruct (import_sound n [] m s s1 r (module_check n m D M) I E) as (I1 & R & _ & Q).
    destruct (IH s1 A' I1) as (J1 & J2 & J4 & J3). destruct (session T n ms s1) as [s2 rs]. cbn [fst snd] in *. split; [exact J1|]. split; [constructor; auto|]. split; [cbn [length]; congruence|].
    intros H. destruct (Q H) as [-> H1]. destruct (J3 H1). split; [constructor; auto|assumption].
Qed.
Lemma process_inv n ms l l' : depth <= n -> Forall (fun m => In m module_names) ms -> Inv [] (process n ms l l').
Proof.
  intros D A. unfold process. destruct (session_inv n D ms (fresh l) A (inv_fresh l)) as [I _]. apply (inv_same [] (fst (session T n ms (fresh l)))); [reflexivity|exact I].
Qed.
Lemma quiet_or l : quiet l \/ In true l.
Proof. induction l as [|[] l [IH|IH]]; [left; constructor|right; left; reflexivity|right; left; reflexivity|left; constructor; auto|right; right; exact IH]. Qed.

(** ** Scripts *)
Inductive verdict := Fine | Doom (m x : string) | Unknown.
Fixpoint scanf (m : string) (e : modl) (xs : list (string * string)) : verdict :=
  match xs with
  | [] => Fine
  | (x, _) :: xs => if mem x (provides e) then scanf m e xs else if mem x (submodules m) then Unknown else match file_of T (inside m x) with None => Doom m x | Some _ => Unknown end
  end.
Fixpoint scan (n : nat) (l : list istmt) : verdict :=
  match l with
  | [] => Fine
  | Other _ :: l => scan n l
  | Import m _ :: l => if check n [] m then scan n l else Unknown
  | From m xs :: l =>
      if check n [] m then match file_of T m with None => Unknown | Some e => match scanf m e xs with Fine => scan n l | v => v end end else Unknown
  end.
Definition says (v : verdict) (r : ires) : Prop := match v with Fine => r = IDone | Doom m x => r = IMissing m x | Unknown => True end.

Definition main : string := "__main__".
Lemma main_bind xs s : Inv [] s -> Inv [] (bind main xs s) /\ forall k, names_of k (bind main xs s) = names_of k s.
Proof.
  intros I. assert (N : names_of main s = None). { destruct (names_of main s) as [ns|] eqn:E; [|reflexivity]. destruct (proj1 I _ _ E) as (e & F & _). vm_compute in F. discriminate. }
  assert (H : forall k, names_of k (bind main xs s) = names_of k s) by (intros k; rewrite names_bind; destruct (String.eqb_spec k main) as [->|]; [rewrite N; reflexivity|reflexivity]).
  split; [|exact H]. apply (inv_same [] s); [exact H|exact I].
Qed.

Lemma scanf_sound n m e : file_of T m = Some e -> forall xs s s' r, Inv [] s -> names_of m s <> None -> scanf m e xs <> Unknown ->
  fetch T (import_module T n) main m xs s = (s', r) -> Inv [] s' /\ says (scanf m e xs) r /\ faults s' = faults s.
Proof.
  intros F. induction xs as [|[x y] xs IH]; intros s s' r I N U E; cbn [scanf fetch] in *.
  - injection E as <- <-. split; [exact I|]. split; reflexivity.
  - destruct (names_of m s) as [ns|] eqn:M; [|congruence]. destruct (proj1 I m ns M) as (e' & F' & UP & LO). rewrite F in F'. injection F' as <-. cbn [lookup find] in LO.
    destruct (mem x (provides e)) eqn:P.
    + assert (X : existsb (String.eqb x) ns = true) by (apply mem_In, LO, mem_In; exact P). rewrite X in E. destruct (main_bind [y] s I) as [I' H].
      apply (IH (bind main [y] s) s' r I'); [rewrite H, M; discriminate|exact U|exact E].
    + destruct (mem x (submodules m)) eqn:S; [congruence|]. assert (X : existsb (String.eqb x) ns = false).
      { destruct (existsb (String.eqb x) ns) eqn:X; [|reflexivity]. apply mem_In, UP in X. destruct X as [X|X]; apply mem_In in X; [congruence|]. rewrite (file_of_name _ _ F) in X. congruence. }
      rewrite X in E. destruct (file_of T (inside m x)); [congruence|]. injection E as <- <-. split; [exact I|]. split; reflexivity.
Qed.
Lemma scan_sound n : forall l s s' r, Inv [] s -> scan n l <> Unknown -> run_script T n l s = (s', r) ->
  Inv [] s' /\ (says (scan n l) r \/ r = IFailed) /\ (quiet (faults s) -> says (scan n l) r).
Proof.
  unfold run_script. fold main. induction l as [|[xs|m x|m xs] l IH]; intros s s' r I U E; cbn [scan run_body] in *.
  - injection E as <- <-. split; [exact I|]. split; [left; reflexivity|reflexivity].
  - destruct (chance s) as [b s1] eqn:H. destruct (inv_chance _ _ _ _ H I) as [I1 Q1]. destruct b.
    + injection E as <- <-. split; [exact I1|]. split; [auto|]. intros Q. destruct (Q1 Q). discriminate.
    + destruct (main_bind xs s1 I1) as [I2 _]. destruct (IH _ _ _ I2 U E) as (A & B & C). split; [exact A|]. split; [exact B|]. intros Q. apply C. apply Q1. exact Q.
  - destruct (check n [] m) eqn:K; [|congruence]. destruct (import_module T n m s) as [s1 r1] eqn:P. destruct (import_sound n [] m s s1 r1 K I P) as (I1 & [->| ->] & _ & Q1).
    + destruct (main_bind [x] s1 I1) as [I2 _]. destruct (IH _ _ _ I2 U E) as (A & B & C). split; [exact A|]. split; [exact B|]. intros Q. apply C. apply Q1. exact Q.
    + injection E as <- <-. split; [exact I1|]. split; [auto|]. intros Q. destruct (Q1 Q). discriminate.
  - destruct (check n [] m) eqn:K; [|congruence]. destruct (file_of T m) as [e|] eqn:F; [|congruence]. destruct (import_module T n m s) as [s1 r1] eqn:P.
    destruct (import_sound n [] m s s1 r1 K I P) as (I1 & [->| ->] & N1 & Q1).
    + destruct (fetch T (import_module T n) main m xs s1) as [s2 r2] eqn:FE. destruct (scanf_sound n m e F xs s1 s2 r2 I1 (N1 eq_refl)) as (I2 & S2 & F2); [destruct (scanf m e xs); congruence|exact FE|].
      destruct (scanf m e xs) as [|m' x'|]; cbn [says] in *; [| |congruence].
      * subst r2. destruct (IH _ _ _ I2 U E) as (A & B & C). split; [exact A|]. split; [exact B|]. intros Q. apply C. rewrite F2. apply Q1. exact Q.
      * subst r2. injection E as <- <-. split; [exact I2|]. split; [left; reflexivity|reflexivity].
    + injection E as <- <-. split; [exact I1|]. split; [auto|]. intros Q. destruct (Q1 Q). discriminate.
Qed.
Lemma scan_mono n k l : n <= k -> scan n l <> Unknown -> scan k l = scan n l.
Proof.
  intros L. induction l as [|[xs|m x|m xs] l IH]; cbn [scan]; auto.
  - destruct (check n [] m) eqn:K; [|congruence]. rewrite (check_mono _ _ _ _ L K). exact IH.
  - destruct (check n [] m) eqn:K; [|congruence]. rewrite (check_mono _ _ _ _ L K). destruct (file_of T m) as [e|]; [|reflexivity]. destruct (scanf m e xs); auto.
Qed.
Definition verdict_eqb (v : verdict) (r : ires) : bool :=
  match v, r with Fine, IDone => true | Doom m x, IMissing m' x' => String.eqb m m' && String.eqb x x' | _, _ => false end.
Lemma scripts_checked : forallb (fun f => verdict_eqb (scan depth (snd f)) (expected (fst f))) import_scripts = true.
Proof. vm_compute. reflexivity. Qed.
Lemma script_says n f : depth <= n -> In f import_scripts -> scan n (snd f) <> Unknown /\ forall r, says (scan n (snd f)) r <-> r = expected (fst f).
Proof.
  intros D I. pose proof (proj1 (forallb_forall _ _) scripts_checked f I) as H. cbv beta in H.
  assert (U : scan depth (snd f) <> Unknown) by (intros E; rewrite E in H; discriminate). rewrite (scan_mono depth n _ D U). split; [exact U|]. intros r.
  destruct (scan depth (snd f)) as [|m x|]; cbn [says verdict_eqb] in *; [| |congruence].
  - destruct (expected (fst f)); try discriminate. reflexivity.
  - destruct (expected (fst f)); try discriminate. apply andb_true_iff in H as [A B]. apply String.eqb_eq in A, B. subst. reflexivity.
Qed.

(** ** Statements begun once, as long as nothing failed *)
Definition Once (s : istate) : Prop := NoDup (begun s) /\ forall m, In m (begun s) -> names_of m s <> None.
Lemma once_bind m xs s : Once s -> Once (bind m xs s).
Proof. intros [A B]. split; [exact A|]. intros k K. rewrite names_bind. specialize (B k K). destruct (k =? m); [destruct (names_of k s); [discriminate|congruence]|exact B]. Qed.
Lemma once_chance s b s' : chance s = (b, s') -> Once s -> Once s'.
Proof. unfold chance. intros E O. destruct (faults s); injection E as <- <-; exact O. Qed.
Definition once_imp (imp : string -> istate -> istate * ires) : Prop := forall m s s', Once s -> imp m s = (s', IDone) -> Once s'.
Lemma once_fetch t imp me m : once_imp imp -> forall xs s s', Once s -> fetch t imp me m xs s = (s', IDone) -> Once s'.
Proof.
  intros H. induction xs as [|[x y] xs IH]; intros s s' O E; cbn [fetch] in E; [injection E as <-; exact O|].
  destruct (match names_of m s with Some ns => existsb (String.eqb x) ns | None => false end); [apply (IH _ _ (once_bind _ _ _ O) E)|].
  destruct (file_of t (inside m x)); [|discriminate]. destruct (imp (inside m x) s) as [s1 []] eqn:P; try discriminate. apply (IH _ _ (once_bind _ _ _ (H _ _ _ O P)) E).
Qed.
Lemma once_body t imp me : once_imp imp -> forall l s s', Once s -> run_body t imp me l s = (s', IDone) -> Once s'.
Proof.
  intros H. induction l as [|[xs|m x|m xs] l IH]; intros s s' O E; cbn [run_body] in E; [injection E as <-; exact O| | |].
  - destruct (chance s) as [[] s1] eqn:C; [discriminate|]. apply (IH _ _ (once_bind _ _ _ (once_chance _ _ _ C O)) E).
  - destruct (imp m s) as [s1 []] eqn:P; try discriminate. apply (IH _ _ (once_bind _ _ _ (H _ _ _ O P)) E).
  - destruct (imp m s) as [s1 []] eqn:P; try discriminate. destruct (fetch t imp me m xs s1) as [s2 []] eqn:F; try discriminate.
    apply (IH _ _ (once_fetch _ _ _ _ H _ _ _ (H _ _ _ O P) F) E).
Qed.
Lemma once_module t n : once_imp (import_module t n).
Proof.
  induction n as [|n IH]; intros m s s' O E; cbn [import_module] in E; [discriminate|]. destruct (loaded m s); [injection E as <-; exact O|].
  destruct (file_of t m) as [e|]; [|discriminate].
  assert (P : exists s1, match m_parent e with None => (s, IDone) | Some p => import_module t n p s end = (s1, IDone) /\ Once s1).
  { destruct (m_parent e) as [p|]; [|exists s; auto]. destruct (import_module t n p s) as [s1 []] eqn:P; try discriminate. exists s1. split; [reflexivity|exact (IH _ _ _ O P)]. }
  destruct P as (s1 & P & O1). rewrite P in E. destruct (loaded m s1) eqn:L; [injection E as <-; exact O1|].
  destruct (run_body t (import_module t n) m (m_body e) (enter m s1)) as [s2 []] eqn:R; try discriminate.
  assert (O2 : Once s2).
  { apply (once_body _ _ _ IH _ _ _) with (2 := R). destruct O1 as [A B]. split.
    - cbn [enter begun]. constructor; [|exact A]. intros I. apply B, loaded_true in I. congruence.
    - intros k. cbn [enter begun]. rewrite names_enter. intros [<-|K]; [rewrite String.eqb_refl; discriminate|]. destruct (k =? m); [discriminate|apply B; exact K]. }
  destruct (m_parent e); injection E as <-; [apply once_bind; exact O2|exact O2].
Qed.
Lemma once_session t n : forall ms s, Once s -> Forall (fun r => r = IDone) (snd (session t n ms s)) -> Once (fst (session t n ms s)).
Proof.
  induction ms as [|m ms IH]; intros s O; cbn [session]; [auto|]. destruct (import_module t n m s) as [s1 r] eqn:E. specialize (IH s1). destruct (session t n ms s1) as [s2 rs]. cbn [fst snd] in *.
  intros A. inversion A; subst. apply IH; [exact (once_module _ _ _ _ _ O E)|assumption].
Qed.
