(** C95: the commands the scripts record. *)
From Coq Require Import String Ascii List ZArith NArith Bool Lia.
From Verif.Model Require Import Py ShipLog Cmd Commands.
From Verif.Spec Require Import CmdSpec.
From Verif.Proofs Require Import CmdP CmdQ.
Import ListNotations.

(** Running the recorded command of a run again runs the script of that name; argparse accepts it as the specification says and gives the
    options the values it says.  The options may come from any command line the script accepted. *)
Theorem c95_replay F show_float read_float literal of_int :
  (forall x, read_float (show_float x) = Some x) -> (forall z, read_float (show_int z) = Some (of_int z)) ->
  forall s argv ns n file, In s scripts ->
  parse_args F read_float literal (s_options s) argv = Some ns ->
  (forall x v, get ns x = Some v -> printable F show_float v) -> plain file ->
  replay F read_float literal s (record F show_float s ns n file) =
  Some (file, if accepted F s (in_force F s ns) then Some (expected F literal of_int s (in_force F s ns) n) else None).
Proof.
  intros H1 H2 s argv ns n file Is. apply replay_spec; auto. pose proof check_all as C. rewrite forallb_forall in C. auto.
Qed.
Print Assumptions c95_replay.

(** For the scripts without the defects below the second run has the settings of the first, except for a positive N. *)
Theorem c95_faithful F show_float read_float literal of_int :
  (forall x, read_float (show_float x) = Some x) -> (forall z, read_float (show_int z) = Some (of_int z)) ->
  forall s argv ns n file, In s scripts -> repeatable (s_file s) ->
  parse_args F read_float literal (s_options s) argv = Some ns ->
  (forall x v, get ns x = Some v -> printable F show_float v) -> plain file ->
  exists ns', replay F read_float literal s (record F show_float s ns n file) = Some (file, Some ns') /\
    forall o, In o (s_options s) -> (o_name o = "N"%string -> positive ns "N" = false) ->
    same_setting of_int (get (in_force F s ns) (o_name o)) (get (in_force F s ns') (o_name o)).
Proof.
  intros H1 H2 s argv ns n file Is Rp Pa Pr Pf.
  assert (Ck : check s = true) by (pose proof check_all as C; rewrite forallb_forall in C; auto).
  assert (Hm : accepted F s (in_force F s ns) = true /\ forallb (harmless (s_file s)) (s_options s) = true).
  { pose proof harmless_all as C. rewrite forallb_forall in C. specialize (C s Is). apply orb_true_iff in C as [C|C].
    - exfalso. apply Rp. now apply mem_spec in C.
    - apply andb_true_iff in C as [C1 C2]. split; [|exact C2]. apply andb_true_iff in C1 as [C1 C3]. unfold accepts in C1, C3. unfold accepted.
      destruct (existsb _ _) in *; [discriminate|]. destruct (String.eqb _ _) in *; [discriminate|reflexivity]. }
  destruct Hm as [Ac Hm].
  eexists. split; [rewrite (c95_replay F show_float read_float literal of_int H1 H2 s argv ns n file) by assumption; now rewrite Ac|].
  intros o Io Hn. eapply same_again; eauto.
  unfold check in Ck. rewrite !andb_true_iff in Ck. destruct Ck as ((((E1 & E2) & E3) & E4) & E5).
  eapply parse_good; [now apply nodupb_spec| |exact Pa]. now apply defaults_good.
Qed.
Print Assumptions c95_faithful.

(** Defect: the commands of two scripts are refused, whatever the options of the run; that of a third is refused unless the window was
    positive. *)
Theorem c95_refused F show_float read_float literal of_int :
  (forall x, read_float (show_float x) = Some x) -> (forall z, read_float (show_int z) = Some (of_int z)) ->
  forall s argv ns n file,
  In s [s_hc_classifying_entropy_decoder_over_awgn_channel; s_hc_simulated_data_pretrained_model] \/
  s = s_feb_2022_experimental_mavlink_based /\ positive ns "window_len" = false ->
  parse_args F read_float literal (s_options s) argv = Some ns ->
  (forall x v, get ns x = Some v -> printable F show_float v) -> plain file ->
  replay F read_float literal s (record F show_float s ns n file) = Some (file, None).
Proof.
  intros H1 H2 s argv ns n file Hs Pa Pr Pf.
  assert (Is : In s scripts) by (cbn [scripts In] in *; tauto || (destruct Hs as [[<-|[<-|[]]]|[-> _]]; cbn [scripts In]; tauto)).
  rewrite (c95_replay F show_float read_float literal of_int H1 H2 s argv ns n file) by assumption.
  destruct Hs as [[<-|[<-|[]]]|[-> W]]; [reflexivity|reflexivity|].
  change (accepted F s_feb_2022_experimental_mavlink_based (in_force F s_feb_2022_experimental_mavlink_based ns)) with (positive ns "window_len").
  now rewrite W.
Qed.
Print Assumptions c95_refused.

(** Defect: options that are not recorded; whatever was given, the second run has the default. *)
Theorem c95_lost F show_float read_float literal of_int :
  (forall x, read_float (show_float x) = Some x) -> (forall z, read_float (show_int z) = Some (of_int z)) ->
  forall s x d argv ns n file,
  In (s, x, d) [(s_feb_2022_experimental_data_unified_decoder, "cluster", 1%Z); (s_feb_2023_experimental_data_unified_decoder, "cluster", 1%Z);
                (s_feb_2023_experimental_data_run_feb_23, "separate_models", 0%Z); (s_feb_2023_experimental_mavlink_based, "separate_models", 0%Z)]%string ->
  parse_args F read_float literal (s_options s) argv = Some ns ->
  (forall x v, get ns x = Some v -> printable F show_float v) -> plain file ->
  exists ns', replay F read_float literal s (record F show_float s ns n file) = Some (file, Some ns') /\ get ns' x = Some (VInt d).
Proof.
  intros H1 H2 s x d argv ns n file Hs Pa Pr Pf.
  assert (Is : In s scripts) by (destruct Hs as [E|[E|[E|[E|[]]]]]; injection E as <- _ _; cbn [scripts In]; tauto).
  rewrite (c95_replay F show_float read_float literal of_int H1 H2 s argv ns n file) by assumption.
  destruct Hs as [E|[E|[E|[E|[]]]]]; injection E as <- <- <-; eexists; (split; [reflexivity|]); reflexivity.
Qed.
Print Assumptions c95_lost.

(** Defect: a run of the averaged model without a window is repeated with a window of 50; a run of the weighted model over all the data is
    repeated with the default of the processes. *)
Theorem c95_dropped F show_float read_float literal of_int :
  (forall x, read_float (show_float x) = Some x) -> (forall z, read_float (show_int z) = Some (of_int z)) ->
  forall s x y d argv ns n file,
  In (s, x, y, d) [(s_hc_simulated_data_entropy_bitwise_decoder_weighted_model_averaged, "window_len", "window_len", 50%Z);
                   (s_hc_simulated_data_entropy_bitwise_decoder_weighted_model, "N", "processes", 0%Z)]%string ->
  parse_args F read_float literal (s_options s) argv = Some ns ->
  (forall x v, get ns x = Some v -> printable F show_float v) -> plain file -> positive ns x = false ->
  exists ns', replay F read_float literal s (record F show_float s ns n file) = Some (file, Some ns') /\ get ns' y = Some (VInt d).
Proof.
  intros H1 H2 s x y d argv ns n file Hs Pa Pr Pf W.
  assert (Is : In s scripts) by (destruct Hs as [E|[E|[]]]; injection E as <- _ _ _; cbn [scripts In]; tauto).
  rewrite (c95_replay F show_float read_float literal of_int H1 H2 s argv ns n file) by assumption.
  destruct Hs as [E|[E|[]]]; injection E as <- <- <- <-; (eexists; split; [reflexivity|]).
  - change (Some (if positive ns "window_len" then match get ns "window_len" with Some v => v | None => VInt 50 end else VInt 50 : value F) = Some (VInt 50)).
    now rewrite W.
  - change (Some (if (positive ns "processes" && positive ns "N")%bool then match get ns "processes" with Some v => v | None => VInt 0 end else VInt 0 : value F) = Some (VInt 0)).
    now rewrite W, andb_false_r.
Qed.
Print Assumptions c95_dropped.

(** Defect: with a positive N the recorded N is the number of words, so the second run takes as many buffers as the first only if every
    buffer is one word and none is repeated, or if it took them all. *)
Theorem c95_count split m n available : (0 < n)%Z -> (0 < available)%Z -> (split = 1 \/ split = 2)%Z ->
  let w := words_of split m (buffers n available) in
  buffers w available = buffers n available <-> (split = 1 /\ m <= 0)%Z \/ (available <= n)%Z.
Proof. exact (buffers_count split m n available). Qed.
Print Assumptions c95_count.

(** Defect: a path with a blank is cut at the blank. *)
Theorem c95_space F show_float read_float literal s ns n a c : In s scripts -> plain a ->
  exists r, replay F read_float literal s (record F show_float s ns n (a ++ 32%N :: c)) = Some (a, r).
Proof. intro Is. apply replay_space. pose proof starts_all as C. rewrite forallb_forall in C. auto. Qed.
Print Assumptions c95_space.

(** A command line of options with their values, each written --name value or --name=value: an option has the value given last, the others
    their defaults; one text that is no value of its option's type ends the script. *)
Theorem c95_command_line F read_float literal s l : In s scripts ->
  Forall (fun g => let '(o, v, e) := g in In o (s_options s) /\ (e = false -> argument v)) l ->
  match parse_args F read_float literal (s_options s) (flat_map given_text l) with
  | Some ns =>
      Forall (fun g => let '(o, v, _) := g in convert F read_float (o_type o) v <> None) l /\
      forall o, In o (s_options s) ->
      get ns (o_name o) = match last_given (o_name o) l with Some v => convert F read_float (o_type o) v | None => Some (default_value F literal (o_default o)) end
  | None => Exists (fun g => let '(o, v, _) := g in convert F read_float (o_type o) v = None) l
  end.
Proof.
  intros Is G. assert (Fi : fine s = true) by (pose proof fine_all as C; rewrite forallb_forall in C; auto).
  unfold fine in Fi. apply andb_true_iff in Fi as [D N]. apply nodupb_spec in D. rewrite forallb_forall in N.
  assert (Dec : Forall (fun g => let '(o, v, _) := g in convert F read_float (o_type o) v <> None) l \/
                Exists (fun g => let '(o, v, _) := g in convert F read_float (o_type o) v = None) l).
  { clear G. induction l as [|[[o v] e] l IH]; [left; constructor|]. destruct (convert F read_float (o_type o) v) eqn:E; [|right; now constructor].
    destruct IH as [IH|IH]; [left; constructor; [congruence|exact IH]|right; now constructor 2]. }
  destruct Dec as [Ok|Bad].
  - edestruct (line_ok F read_float (s_options s) D N l) as (ns & P & Q).
    { clear - G Ok. induction l as [|[[o v] e] l IH]; [constructor|]. inversion G as [|? ? G1 G2]; inversion Ok; subst. constructor; [split; [apply G1|split; [apply G1|assumption]]|auto]. }
    { intros o I. rewrite (get_defaults F literal (s_options s) D o I). discriminate. }
    unfold parse_args. rewrite P. split; [exact Ok|]. intros o I. rewrite (Q o I). now rewrite get_defaults.
  - unfold parse_args. now rewrite (line_bad F read_float (s_options s) D N l G Bad).
Qed.
Print Assumptions c95_command_line.

(** A value that begins with one dash and is no number is taken only if it contains a blank; otherwise the script ends. *)
Theorem c95_dash F read_float literal s o d t : In s scripts -> In o (s_options s) -> d <> 45%N -> d <> 104%N -> ~ argument (45%N :: d :: t) ->
  (parse_args F read_float literal (s_options s) (given_text (o, 45%N :: d :: t, false)) <> None <->
   In 32%N (d :: t) /\ convert F read_float (o_type o) (45%N :: d :: t) <> None).
Proof.
  intros Is Io D45 D104 Na. assert (Fi : fine s = true) by (pose proof fine_all as C; rewrite forallb_forall in C; auto).
  unfold fine in Fi. apply andb_true_iff in Fi as [Ds Nm]. apply nodupb_spec in Ds. rewrite forallb_forall in Nm.
  unfold parse_args. cbn [given_text parse_from]. rewrite classify_own by assumption. rewrite classify_dash by assumption.
  destruct (member 32 (d :: t)) eqn:M.
  - assert (I : In 32%N (d :: t)). { unfold member in M. apply existsb_exists in M as (x & Hx & E). apply N.eqb_eq in E. congruence. }
    destruct (convert F read_float (o_type o) (45%N :: d :: t)); split; try tauto; try (intros _; split; [exact I|discriminate]); discriminate.
  - split; [intros H; now contradiction H|]. intros [I _]. exfalso. unfold member in M. assert (X : existsb (N.eqb 32) (d :: t) = true) by (apply existsb_exists; exists 32%N; split; [exact I|reflexivity]). congruence.
Qed.
Print Assumptions c95_dash.

(** Examples, with numbers of Z for floats. *)
Definition ex_read (t : text) : option Z := match py_int t with Ok z => Some z | Err _ => None end.
Definition ex_literal (s : string) : Z := Z.of_nat (String.length s).
Definition ex_args (s : script) (l : list string) : namespace Z :=
  match parse_args Z ex_read ex_literal (s_options s) (map ascii l) with Some ns => ns | None => [] end.
Definition ex_again (s : script) (l : list string) (n : Z) : option (namespace Z) :=
  match replay Z ex_read ex_literal s (record Z show_int s (ex_args s l) n (ascii "/x/y.py")) with Some (_, r) => r | None => None end.
Example c95_ex_command :
  record Z show_int s_hc_simulated_data_entropy_bitwise_decoder_script (ex_args s_hc_simulated_data_entropy_bitwise_decoder_script ["--N"; "7"; "--minf"; "-3"]%string) 14 (ascii "/x/y.py") =
  ascii "python /x/y.py --minflip -3 --maxflip 5 --nflips 5  --ldpciterations 10 --ent_threshold 4 --clipping_factor 2 --min_data 10 --N 14".
Proof. vm_compute. reflexivity. Qed.
Definition ex_plainb (t : text) : bool :=
  match t with c :: _ => negb (c =? 45)%N && forallb (fun c => (43 <=? c) && (c <=? 58) || (64 <=? c) && (c <=? 90) || (97 <=? c) && (c <=? 122))%N t | [] => false end.
Lemma ex_plain t : ex_plainb t = true -> plain t.
Proof.
  destruct t as [|c t]; [discriminate|]. intro E. apply andb_true_iff in E as [_ E]. split; [discriminate|].
  apply Forall_forall. intros d Id. rewrite forallb_forall in E. specialize (E d Id). unfold plain_char.
  rewrite !orb_true_iff, !andb_true_iff, !N.leb_le in E. tauto.
Qed.
Example c95_ex_hypotheses : (forall x, ex_read (show_int x) = Some x) /\ plain (ascii "/x/y.py") /\
  (forall x v, get (ex_args s_feb_2022_experimental_data_run ["--dec_type"; "MS"]%string) x = Some v -> printable Z show_int v).
Proof.
  split; [intro x; unfold ex_read; now rewrite py_int_show|]. split.
  - apply ex_plain. reflexivity.
  - assert (P : forall t, ex_plainb t = true -> plain t /\ argument t).
    { intros t E. split; [now apply ex_plain|]. left. intros c u ->. intros ->. discriminate. }
    intros x v E. apply get_in in E. vm_compute in E.
    repeat (destruct E as [E|E]; [injection E as _ <-; first [exact I | exact (conj (show_int_plain _) (show_int_argument _)) | apply P; reflexivity]|]).
    destruct E.
Qed.
Example c95_ex_same : option_map (fun ns => (get ns "window_len", get ns "dec_type")) (ex_again s_feb_2022_experimental_data_run ["--window_len"; "-4"; "--dec_type"; "MS"]%string 0)
  = Some (Some (VInt 0), Some (VStr (ascii "MS"))).
Proof. vm_compute. reflexivity. Qed.
Example c95_ex_averaged : option_map (fun ns => get ns "window_len") (ex_again s_hc_simulated_data_entropy_bitwise_decoder_weighted_model_averaged ["--window_len"; "0"]%string 0)
  = Some (Some (VInt 50)).
Proof. vm_compute. reflexivity. Qed.
Example c95_ex_cluster : option_map (fun ns => get ns "cluster") (ex_again s_feb_2022_experimental_data_unified_decoder ["--cluster"; "0"]%string 0)
  = Some (Some (VInt 1)).
Proof. vm_compute. reflexivity. Qed.
Example c95_ex_refused : ex_again s_hc_simulated_data_pretrained_model []%string 0 = None /\ ex_again s_feb_2022_experimental_mavlink_based ["--window_len"; "0"]%string 0 = None
  /\ ex_again s_feb_2022_experimental_mavlink_based ["--window_len"; "9"]%string 0 <> None.
Proof. repeat split; vm_compute; try reflexivity. discriminate. Qed.
Example c95_ex_count : option_map (fun ns => get ns "N") (ex_again s_feb_2022_simulation_rafael_code ["--N"; "10"; "--multiply_data"; "1"]%string (words_of 1 1 (buffers 10 100)))
  = Some (Some (VInt 20)) /\ buffers 20 100 = 20%Z.
Proof. split; vm_compute; reflexivity. Qed.
Example c95_ex_line : let o := Opt "segiterations" TInt (DInt 1) in
  nth_error (s_options s_feb_2022_experimental_mavlink_based) 1 = Some o /\
  get (ex_args s_feb_2022_experimental_mavlink_based ["--segiterations"; "-3"; "--ldpciterations=7"; "--segiterations=12"]%string) "segiterations" = Some (VInt 12%Z) /\
  flat_map given_text [(o, ascii "-3", false); (o, ascii "12", true)] = map ascii ["--segiterations"; "-3"; "--segiterations=12"]%string /\
  parse_args Z ex_read ex_literal (s_options s_feb_2022_experimental_mavlink_based) [ascii "--segiterations="] = None.
Proof. vm_compute. repeat split. Qed.
Example c95_ex_dash : let ask v := parse_args Z ex_read ex_literal (s_options s_feb_2022_experimental_data_run) (map ascii ["--dec_type"; v])%string in
  ~ argument (ascii "-x y") /\ option_map (fun ns => get ns "dec_type") (ask "-x y"%string) = Some (Some (VStr (ascii "-x y"))) /\ ask "-xy"%string = None.
Proof.
  split; [|split; vm_compute; reflexivity]. change (ascii "-x y") with [45; 120; 32; 121]%N. intros [H|(u & E & H)]; [exact (H _ _ eq_refl eq_refl)|]. injection E as <-.
  destruct H as [[_ H]|(v & w & E & H & _)]; [inversion H as [|? ? K]; unfold a_digit in K; lia|].
  destruct v as [|x v]; [discriminate E|]. injection E as <- _. inversion H as [|? ? K]; unfold a_digit in K; lia.
Qed.
