(** Names of files which differ whatever the variables in them are. *)
From Coq Require Import String Ascii List Bool Arith Lia.
From Verif Require Import Model.Py Model.Saving Model.SaveTable Spec.SavingSpec.
Import ListNotations.
Local Open Scope list_scope.

Fixpoint is_prefix (a b : list ascii) : bool :=
  match a, b with
  | [], _ => true
  | x :: a', y :: b' => Ascii.eqb x y && is_prefix a' b'
  | _, [] => false
  end.

Lemma prefix_of_equal : forall a b x y, a ++ x = b ++ y -> is_prefix a b = true \/ is_prefix b a = true.
Proof.
  induction a as [|c a IH]; intros b x y E; [left; reflexivity|].
  destruct b as [|d b]; [right; reflexivity|].
  cbn in *. injection E as -> E. rewrite Ascii.eqb_refl. cbn. exact (IH _ _ _ E).
Qed.

Notation chars := list_ascii_of_string.

Lemma chars_app : forall a b, chars (String.append a b) = chars a ++ chars b.
Proof. induction a as [|c a IH]; intro b; [reflexivity|]. cbn. rewrite IH. reflexivity. Qed.

Lemma chars_inj : forall a b, chars a = chars b -> a = b.
Proof.
  intros a b E. rewrite <- (string_of_list_ascii_of_string a), <- (string_of_list_ascii_of_string b), E. reflexivity.
Qed.

Definition chars_piece (env : string -> string) (p : piece) : list ascii :=
  match p with Lit s => chars s | Hole v => chars (env v) end.

Lemma chars_render : forall env t, chars (render env t) = concat (map (chars_piece env) t).
Proof. induction t as [|[s|v] t IH]; cbn; [reflexivity| |]; rewrite chars_app, IH; reflexivity. Qed.

Definition prefixes_differ (a b : list ascii) : bool := negb (is_prefix a b) && negb (is_prefix b a).

Definition heads_differ (s t : template) : bool :=
  match s, t with
  | Lit a :: _, Lit b :: _ => prefixes_differ (chars a) (chars b)
  | _, _ => false
  end.
Definition tails_differ (s t : template) : bool :=
  match rev s, rev t with
  | Lit a :: _, Lit b :: _ => prefixes_differ (rev (chars a)) (rev (chars b))
  | _, _ => false
  end.
Definition apart (s t : template) : bool := heads_differ s t || tails_differ s t.

Lemma differ_sound : forall a b x y, prefixes_differ a b = true -> a ++ x <> b ++ y.
Proof.
  intros a b x y D E. unfold prefixes_differ in D. apply andb_true_iff in D as [D1 D2].
  apply negb_true_iff in D1, D2. destruct (prefix_of_equal _ _ _ _ E); congruence.
Qed.

Lemma apart_sound : forall s t, apart s t = true -> forall e f, render e s <> render f t.
Proof.
  intros s t A e f E. apply (f_equal chars) in E. rewrite !chars_render in E.
  unfold apart in A. apply orb_true_iff in A as [A|A].
  - destruct s as [|[a|?] s]; try discriminate. destruct t as [|[b|?] t]; try discriminate.
    cbn in E. exact (differ_sound _ _ _ _ A E).
  - unfold tails_differ in A.
    destruct (rev s) as [|[a|?] s'] eqn:Es; try discriminate. destruct (rev t) as [|[b|?] t'] eqn:Et; try discriminate.
    apply (f_equal (@rev piece)) in Es, Et. rewrite rev_involutive in Es, Et. subst s t.
    cbn [rev] in E. rewrite !map_app, !concat_app in E. apply (f_equal (@rev ascii)) in E.
    rewrite !rev_app_distr in E. cbn in E. rewrite !app_nil_r in E. exact (differ_sound _ _ _ _ A E).
Qed.

Definition piece_eqb (p q : piece) : bool :=
  match p, q with
  | Lit a, Lit b => String.eqb a b
  | Hole a, Hole b => String.eqb a b
  | _, _ => false
  end.
Lemma piece_eqb_eq : forall p q, piece_eqb p q = true -> p = q.
Proof. intros [a|a] [b|b] E; try discriminate; cbn in E; apply String.eqb_eq in E; congruence. Qed.

(** Different for every value of the variables, which are the same in both. *)
Fixpoint apart_same (s t : template) : bool :=
  apart s t || match s, t with
               | p :: s', q :: t' => piece_eqb p q && apart_same s' t'
               | _, _ => false
               end.

Lemma apart_same_sound : forall s t, apart_same s t = true -> forall e, render e s <> render e t.
Proof.
  induction s as [|p s IH]; intros t A e E; destruct t as [|q t]; cbn [apart_same] in A.
  - apply orb_true_iff in A as [A|A]; [|discriminate]. exact (apart_sound _ _ A _ _ E).
  - apply orb_true_iff in A as [A|A]; [|discriminate]. exact (apart_sound _ _ A _ _ E).
  - apply orb_true_iff in A as [A|A]; [|discriminate]. exact (apart_sound _ _ A _ _ E).
  - apply orb_true_iff in A as [A|A]; [exact (apart_sound _ _ A _ _ E)|].
    apply andb_true_iff in A as [A1 A2]. apply piece_eqb_eq in A1. subst q.
    apply (IH _ A2 e). apply chars_inj. apply (f_equal chars) in E. rewrite !chars_render in *.
    cbn in E. apply app_inv_head in E. exact E.
Qed.

(** The names a script makes in its directory. *)
Fixpoint names_in (l : list stmt) : list template :=
  match l with
  | [] => []
  | SWrite t :: l' | SMkdirIn t :: l' => t :: names_in l'
  | _ :: l' => names_in l'
  end.

Fixpoint all_apart (l : list template) : bool :=
  match l with
  | [] => true
  | t :: l' => apart t [Lit "log.log"] && forallb (apart_same t) l' && all_apart l'
  end.

Lemma all_apart_sound : forall l, all_apart l = true -> forall e, NoDup ("log.log"%string :: map (render e) l).
Proof.
  intros l A e. constructor.
  - intro I. apply in_map_iff in I as [t [E I]]. induction l as [|u l IH]; [contradiction|].
    cbn in A. apply andb_true_iff in A as [A A3]. apply andb_true_iff in A as [A1 A2].
    destruct I as [->|I]; [|exact (IH A3 I)]. apply (apart_sound _ _ A1 e e). rewrite E. reflexivity.
  - induction l as [|u l IH]; [constructor|].
    cbn in A. apply andb_true_iff in A as [A A3]. apply andb_true_iff in A as [A1 A2].
    cbn. constructor; [|exact (IH A3)]. intro I. apply in_map_iff in I as [t [E I]].
    rewrite forallb_forall in A2. exact (apart_same_sound _ _ (A2 _ I) e (eq_sym E)).
Qed.

(** The file of a step is not called log.log. *)
Definition steps_apart (l : list stmt) : bool :=
  forallb (fun s => match s with
                    | SPool (Some (AtRun, _)) => false
                    | SPool (Some (_, t)) => apart t [Lit "log.log"]
                    | _ => true
                    end) l.

(** The order of the statements: the directory is made once, before anything goes into it; the log is opened once and moved in the end. *)
Fixpoint in_order (made sub opened : bool) (l : list stmt) : bool :=
  match l with
  | [] => true
  | SMkdir :: l' => negb made && in_order true sub opened l'
  | SMkdirIn _ :: l' => made && negb sub && in_order made true opened l'
  | SWrite _ :: l' => made && in_order made sub opened l'
  | SOpenLog AtRun :: l' => made && negb opened && in_order made sub true l'
  | SOpenLog AtResults :: l' => negb opened && in_order made sub true l'
  | SOpenLog AtCwd :: _ => false
  | SMove :: l' => made && opened && match l' with [] => true | _ => false end
  | _ :: l' => in_order made sub opened l'
  end.

Definition is_move (s : stmt) : bool := match s with SMove => true | _ => false end.
Definition is_open_results (s : stmt) : bool := match s with SOpenLog AtResults => true | _ => false end.
Definition is_open_run (s : stmt) : bool := match s with SOpenLog AtRun => true | _ => false end.
Definition is_mkdir (s : stmt) : bool := match s with SMkdir => true | _ => false end.

Definition check (sc : script) : bool :=
  let l := stmts sc in
  all_apart (names_in l) && steps_apart l && in_order false false false l &&
  (* the shared log is opened before the try, and moved in the end of the try and in the handler; other scripts move nothing *)
  match existsb is_open_results l, sc_handler sc with
  | true, Some [SMove] => existsb is_open_results (sc_pre sc) && negb (existsb is_move (sc_pre sc)) && existsb is_move (sc_body sc)
                          && negb (existsb is_open_run l)
  | false, Some [] | false, None => negb (existsb is_move l)
  | _, _ => false
  end && existsb is_mkdir l &&
  match sc_handler sc with None => match sc_body sc with [] => true | _ => false end | Some _ => true end.

Lemma table_checked : forallb (fun x => check (snd x)) saving_scripts = true.
Proof. vm_compute. reflexivity. Qed.

Lemma in_table_check : forall sc, in_table sc -> check sc = true.
Proof.
  intros sc [n I]. pose proof table_checked as T. rewrite forallb_forall in T. exact (T _ I).
Qed.
