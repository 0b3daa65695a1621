(** C84: the reader of the ship's logs. *)
From Coq Require Import String Ascii List Arith ZArith NArith Bool Lia Permutation.
From Verif.Model Require Import Py ShipLog.
From Verif.Spec Require Import ShipLogSpec.
From Verif.Proofs Require Import ShipLogP.
Import ListNotations.

(** Search and split. *)
Theorem c84_find : forall p s, (forall k, find_z p s = Z.of_nat k <-> first_at p s k) /\ (find_z p s = (-1)%Z <-> absent p s).
Proof.
  intros p s. unfold find_z. pose proof (find_some p s) as Fs. pose proof (find_none p s) as Fn. destruct (find_bytes p s) as [j|].
  - split; [|split; [lia|intros A; apply Fn in A; discriminate]]. intros k. rewrite <- Fs. split; [intros K; f_equal; lia|congruence].
  - split; [|tauto]. intros k. rewrite <- Fs. split; [lia|discriminate].
Qed.
Print Assumptions c84_find.
Theorem c84_split : forall p s, p <> [] -> Forall (absent p) (split_bytes p s) /\ (exists h t, split_bytes p s = h :: t /\ s = h ++ concat (map (app p) t)) /\
  forall u v, s = u ++ p ++ v -> first_at p s (length u) -> split_bytes p s = u :: split_bytes p v.
Proof.
  intros p s Hp. destruct (split_pieces p Hp (length s) s (le_n _)) as [A B]. split; [exact A|]. split; [exact B|]. intros u v -> Hf. apply split_first; assumption.
Qed.
Print Assumptions c84_split.

(** A log that consists of readable entries and of text without a time is read exactly: one acquisition for each entry, in their order. *)
Theorem c84_log : forall T (strptime : list N -> res T) before is l, junk before -> to_read strptime is l -> read_log T strptime (log_text before is) = Ok l.
Proof.
  intros T strptime before is l [Ht Ha] R. destruct (break_items T strptime is l R) as [Hi B]. unfold read_log. rewrite split_log by assumption. rewrite break_skip by exact Ht. exact B.
Qed.
Print Assumptions c84_log.
Theorem c84_logs : forall T (strptime : list N -> res T) logs ls, Forall2 (fun log l => read_log T strptime log = Ok l) logs ls -> read_logs T strptime logs = Ok (concat ls).
Proof.
  intros T strptime logs ls H. unfold read_logs. assert (G : forall acc, fold_res (fun acc log => do! l <- read_log T strptime log in Ok (acc ++ l)) logs acc = Ok (acc ++ concat ls)).
  { induction H as [|log l logs ls E H IH]; intros acc; cbn [fold_res concat]; [rewrite app_nil_r; reflexivity|]. rewrite E. cbn [bind]. rewrite IH. rewrite app_assoc. reflexivity. }
  apply G.
Qed.
Print Assumptions c84_logs.

(** An entry with a time that cannot be read, or with a size that is no number, ends the reading: nothing of the log is returned, whatever follows. *)
Theorem c84_bad_entry : forall T (strptime : list N -> res T) before is l b rest e, junk before -> to_read strptime is l ->
  Forall (fun i => absent (ascii "Aquisition ") (item_text i)) rest -> absent (ascii "Aquisition ") b -> ~ absent (ascii "time: ") b -> 
  (absent (ascii "data success: ") b /\ e = IndexError \/ exists x, b = entry_text x /\ readable x /\
     (strptime (ascii " " ++ n_time x) = Err e \/ (exists t, strptime (ascii " " ++ n_time x) = Ok t) /\ (forall v, ~ writes (n_size x) v) /\ e = ValueError)) ->
  read_log T strptime (log_text before (is ++ Junk b :: rest)) = Err e.
Proof.
  intros T strptime before is l b rest e [Ht Ha] R Hr Hb Ho Hc. destruct (break_items T strptime is l R) as [Hi B]. unfold read_log.
  rewrite split_log; [|exact Ha|apply Forall_app; split; [exact Hi|constructor; assumption]]. rewrite break_skip by exact Ht. rewrite map_app. cbn [map item_text].
  assert (Hz : (0 <=? find_z (ascii "time: ") b)%Z = true).
  { destruct (find_bytes (ascii "time: ") b) as [k|] eqn:E; [apply find_some in E; eapply find_z_first; exact E|]. apply find_none in E. contradiction. }
  assert (Er : read_entry T strptime b = Err e).
  { destruct Hc as [[Hd -> ] | (x & -> & Rx & Hx)].
    - unfold read_entry. rewrite split_absent by exact Hd. reflexivity.
    - rewrite read_entry_text by exact Rx. destruct Hx as [-> | ((t & ->) & Nw & -> )]; [reflexivity|]. cbn [bind].
      destruct (py_int (n_size x)) as [v|er] eqn:Ei; [exfalso; apply (Nw v); apply int_writes; exact Ei|]. rewrite (int_err _ _ Ei). reflexivity. }
  clear R Hi. revert l B. induction (map item_text is) as [|c cs IH]; intros l B; cbn [app].
  - rewrite break_cons, Hz, Er. reflexivity.
  - rewrite break_cons in B |- *. destruct (0 <=? find_z (ascii "time: ") c)%Z; [|eapply IH; exact B].
    destruct (read_entry T strptime c) as [d|]; [cbn [bind] in *|discriminate]. destruct (break_down T strptime cs) as [l'|]; [|discriminate]. rewrite (IH l') by reflexivity. reflexivity.
Qed.
Print Assumptions c84_bad_entry.

(** The acquisitions of a day are those whose time has it, in their order; the lists of distinct days that occur partition them. *)
Theorem c84_day : forall T (day : T -> Z) d (l : list (acquisition T)),
  (forall a, In a (of_day T day d l) <-> In a l /\ day (a_time a) = d) /\ (forall l1 l2, l = l1 ++ l2 -> of_day T day d l = of_day T day d l1 ++ of_day T day d l2) /\
  (Forall (fun a => In (day (a_time a)) [14; 15; 16]%Z) l -> Permutation l (of_day T day 14 l ++ of_day T day 15 l ++ of_day T day 16 l)).
Proof.
  intros T day d l. split; [|split].
  - intros a. unfold of_day. rewrite filter_In, Z.eqb_eq. reflexivity.
  - intros l1 l2 ->. unfold of_day. induction l1 as [|x l1 IH]; [reflexivity|]. cbn [app filter]. destruct (_ =? _)%Z; cbn [app]; rewrite IH; reflexivity.
  - unfold of_day. induction 1 as [|a l H F IH]; [reflexivity|]. cbn [filter]. destruct H as [H|[H|[H|[]]]]; rewrite <- H.
    + cbn [Z.eqb Pos.eqb app]. apply perm_skip. exact IH.
    + cbn [Z.eqb Pos.eqb app]. rewrite <- Permutation_middle. apply perm_skip. exact IH.
    + cbn [Z.eqb Pos.eqb app]. rewrite app_assoc. rewrite <- Permutation_middle. apply perm_skip. rewrite <- app_assoc. exact IH.
Qed.
Print Assumptions c84_day.

(** Two acquisitions: 14 Feb 2022, 123 and 2 bytes, one of them empty. *)
Definition ex_entry (no time size : string) (success : N) (payload : list N) : entry := Entry (ascii no) (ascii time) (ascii "") (ascii size ++ crlf) success crlf payload.
Definition ex_a := ex_entry "1 " "14_02_2022_10_11_12" "123" 49 (repeat 254%N 123).
Definition ex_b := ex_entry "2 " "15_02_2022_10_11_13" "2" 48 [13; 10]%N.
Definition ex_read (r : res (list (acquisition (list N)))) := match r with Ok l => Some (map (fun a => (a_time a, a_size a, a_success a, a_payload a)) l) | Err _ => None end.
Example c84_ex : ex_read (read_log _ (fun t => Ok t) (log_text (ascii "started") [Read ex_a; Junk (ascii "3 failed"); Read ex_b])) =
  Some [(ascii " 14_02_2022_10_11_12", 123%Z, 1%Z, repeat 254%N 123); (ascii " 15_02_2022_10_11_13", 2%Z, 0%Z, [13; 10]%N)].
Proof. vm_compute. reflexivity. Qed.
Lemma ex_first p s k : find_bytes p s = Some k -> first_at p s k.
Proof. apply find_some. Qed.
Lemma ex_absent p s : find_bytes p s = None -> absent p s.
Proof. apply find_none. Qed.
Example c84_ex_hypotheses : junk (ascii "started") /\ exists l, to_read (fun t => Ok t) [Read ex_a; Junk (ascii "3 failed"); Read ex_b] l.
Proof.
  split; [split; apply ex_absent; vm_compute; reflexivity|]. eexists. eapply tr_read.
  - unfold readable. repeat split; try lia; try (apply ex_first; vm_compute; reflexivity); try (apply ex_absent; vm_compute; reflexivity); vm_compute; discriminate.
  - reflexivity.
  - apply int_writes. reflexivity.
  - apply tr_junk; [split; apply ex_absent; vm_compute; reflexivity|]. eapply tr_read.
    + unfold readable. repeat split; try lia; try (apply ex_first; vm_compute; reflexivity); try (apply ex_absent; vm_compute; reflexivity); vm_compute; discriminate.
    + reflexivity.
    + apply int_writes. reflexivity.
    + constructor.
Qed.

(** The condition on the payload is needed: a payload with a marker inside is cut there without notice, and one with two of them makes the whole
    log unreadable. *)
Theorem c84_payload_refuted : forall T (strptime : list N -> res T) t, strptime (ascii " 14_02_2022_10_11_12") = Ok t -> exists p1 p2 p3, 
  let e p := ex_entry "1 " "14_02_2022_10_11_12" "123" 49 p in
  read_log T strptime (log_text [] [Read (e p1)]) = Ok [Acquisition t 123 1 (ascii "abc")] /\ p1 = ascii "abcdata success: 1" /\
  read_log T strptime (log_text [] [Read (e p2)]) = Ok [Acquisition t 123 1 (ascii "abc")] /\ p2 = ascii "abcAquisition " /\
  read_log T strptime (log_text [] [Read (e p3)]) = Err IndexError /\ p3 = ascii "Aquisition time: ".
Proof.
  intros T strptime t E. exists (ascii "abcdata success: 1"), (ascii "abcAquisition "), (ascii "Aquisition time: "). cbv zeta.
  assert (G : forall p b, split_bytes (ascii "Aquisition ") (log_text [] [Read (ex_entry "1 " "14_02_2022_10_11_12" "123" 49 p)]) = [] :: b -> read_log T strptime (log_text [] [Read (ex_entry "1 " "14_02_2022_10_11_12" "123" 49 p)]) = break_down T strptime b).
  { intros p b S. unfold read_log. rewrite S. apply break_skip. apply ex_absent. reflexivity. }
  split; [|split; [reflexivity|split; [|split; [reflexivity|split; [|reflexivity]]]]].
  - rewrite (G _ [entry_text (ex_entry "1 " "14_02_2022_10_11_12" "123" 49 (ascii "abcdata success: 1"))]) by (vm_compute; reflexivity). rewrite break_cons.
    clear G. revert E. vm_compute. intros ->. reflexivity.
  - rewrite (G _ [entry_text (ex_entry "1 " "14_02_2022_10_11_12" "123" 49 (ascii "abc")); []]) by (vm_compute; reflexivity). rewrite break_cons.
    clear G. revert E. vm_compute. intros ->. reflexivity.
  - rewrite (G _ [entry_text (ex_entry "1 " "14_02_2022_10_11_12" "123" 49 []); ascii "time: "]) by (vm_compute; reflexivity). rewrite break_cons.
    clear G. revert E. vm_compute. intros ->. reflexivity.
Qed.
Print Assumptions c84_payload_refuted.

(** Numbers: exactly the texts of decimal numbers are read, with their value; all others give ValueError. *)
Theorem c84_number : (forall txt v, py_int txt = Ok v <-> writes txt v) /\ forall txt, (forall v, ~ writes txt v) -> py_int txt = Err ValueError.
Proof.
  split; [apply int_writes|]. intros txt H. destruct (py_int txt) as [v|e] eqn:E; [exfalso; apply (H v); apply int_writes; exact E|]. rewrite (int_err _ _ E). reflexivity.
Qed.
Print Assumptions c84_number.
Example c84_ex_number : map py_int [ascii " -12 "; ascii "+1_000"; ascii "1__0"; ascii "-"; ascii ""; ascii "1 2"; ascii "_1"] =
  [Ok (-12)%Z; Ok 1000%Z; Err ValueError; Err ValueError; Err ValueError; Err ValueError; Err ValueError].
Proof. reflexivity. Qed.
