(** Model of inference/dude.py.
    Simplified: the channel, inverse and loss matrices have alphabet_size rows and columns; counters (floats in the code) are
    unbounded integers; the context length of DUDE is not negative; observations are ints. *)
From Coq Require Import List ZArith Bool.
From Verif.Model Require Import Py Float.
Import ListNotations.

(** Equality of tuples of ints. See inference/dude.py:30-63. *)
Fixpoint zs_eqb (a b : list Z) : bool :=
  match a, b with
  | [], [] => true
  | x :: a', y :: b' => (Z.eqb x y && zs_eqb a' b')%bool
  | _, _ => false
  end.

Section Dude.
Variable FO : fops.
Notation F := (F FO).

(** An estimate: a symbol (hard decision) or a probability vector (soft decision). See inference/dude.py:51-63. *)
Inductive estimate := Hard (z : Z) | Soft (p : list F).

(** The constructor arguments; inference/dude.py:9-28, 117-134.  [d_inv] is np.linalg.inv(channel_transition_matrix). *)
Record dude := Dude { d_channel : list (list F); d_inv : list (list F); d_loss : list (list F); d_k : Z; d_hard : bool; d_size : nat }.

(** np.linalg.inv (external): LinAlgError when singular. See inference/dude.py:9-28. *)
Definition dude_new (inv : list (list F) -> res (list (list F))) (channel loss : list (list F)) (k : Z) (hard : bool) (size : nat) : res dude :=
  do! i <- inv channel in Ok (Dude channel i loss k hard size).

(** [m[:, j]]. See inference/dude.py:80-96, 219-235. *)
Definition mcol (m : list (list F)) (j : nat) : list F := map (fun r => nth j r (fz FO 0)) m.
(** Elementwise product of two vectors. See inference/dude.py:80-96, 219-235. *)
Definition vmul (a b : list F) : list F := map (fun xy => fmul FO (fst xy) (snd xy)) (combine a b).
(** np.matmul of a row vector and a matrix with n columns. See inference/dude.py:80-96, 219-235. *)
Definition vecmat (n : nat) (v : list F) (m : list (list F)) : list F := map (fun j => fsum FO (vmul v (mcol m j))) (seq 0 n).

(** np.argmin: the first least entry. See inference/dude.py:51-63, 204-216. *)
Fixpoint argmin_from (l : list F) (i best : nat) (m : F) : nat :=
  match l with
  | [] => best
  | x :: t => if flt FO x m then argmin_from t (S i) i x else argmin_from t (S i) best m
  end.
(** np.argmin; inference/dude.py:51-63, 204-216. *)
Definition argmin (l : list F) : nat := match l with [] => 0 | x :: t => argmin_from t 1 0 x end.

(** np.eye(n)[i]. See inference/dude.py:40-43, 176, 180. *)
Definition unit_row (n i : nat) : list F := map (fun j => if Nat.eqb j i then fz FO 1 else fz FO 0) (seq 0 n).

(** smooth_posterior; inference/dude.py:80-96, 219-235. *)
Definition smooth_posterior (d : dude) (empirical : list Z) (obs : nat) : res (list F) :=
  match vecmat (d_size d) (map (fz FO) empirical) (d_inv d) with
  | t0 :: t1 :: rest =>
      let one := fz FO 1 in
      let tmp := if flt FO t0 one then one :: fsub FO (fsum FO (one :: t1 :: rest)) one :: rest
                 else if flt FO t1 one then fsub FO (fsum FO (t0 :: one :: rest)) one :: one :: rest
                 else t0 :: t1 :: rest in
      let tmp := vmul tmp (mcol (d_channel d) obs) in
      Ok (map (fun x => fdiv FO x (fsum FO tmp)) tmp)
  | _ => Err IndexError
  end.

(** Estimate and cost from the counts of a context; inference/dude.py:51-63, 204-216. *)
Definition decide (d : dude) (empirical : list Z) (obs : nat) : res (estimate * F) :=
  if d_hard d
  then let posterior := vmul (vecmat (d_size d) (map (fz FO) empirical) (d_inv d)) (mcol (d_channel d) obs) in
       let cost := vecmat (d_size d) posterior (d_loss d) in
       let e := argmin cost in
       Ok (Hard (Z.of_nat e), nth e cost (fz FO 0))
  else do! p <- smooth_posterior d empirical obs in
       Ok (Soft p, fsum FO (vmul (vecmat (d_size d) p (d_loss d)) p)).

(** An observation returned as it is; inference/dude.py:40-43, 176, 180. *)
Definition unchanged (d : dude) (obs : nat) : estimate := if d_hard d then Hard (Z.of_nat obs) else Soft (unit_row (d_size d) obs).

(** [counts[i] += 1]. See inference/dude.py:30-63. *)
Definition bump (counts : list Z) (i : nat) : list Z := set_nth counts i (nth i counts 0 + 1)%Z.

(** OnlineDude: the attributes that change, contexts and _last_context; inference/dude.py:26-27. *)
Record online := Online { o_contexts : list (list Z * list Z); o_last : list Z }.
(** A new denoiser; inference/dude.py:26-27. *)
Definition online_new : online := Online [] [].

(** OnlineDude.denoise_sample; inference/dude.py:30-63. *)
Definition denoise_sample (d : dude) (s : online) (observation : Z) : online * res (estimate * F) :=
  if negb ((0 <=? observation)%Z && (observation <? Z.of_nat (d_size d))%Z) then (s, Err ValueError)
  else
    let obs := Z.to_nat observation in
    if (Z.of_nat (length (o_last s)) <? d_k d)%Z
    then (Online (o_contexts s) (o_last s ++ [observation]), Ok (unchanged d obs, fz FO 0))
    else
      let counts := match dict_get zs_eqb (o_contexts s) (o_last s) with Some c => c | None => repeat 0%Z (d_size d) end in
      let counts := bump counts obs in
      (Online (dict_set zs_eqb (o_contexts s) (o_last s) counts) (tl (o_last s) ++ [observation]), decide d counts obs).

(** OnlineDude.denoise_sequence; inference/dude.py:65-78: estimates and costs, one per observation. *)
Fixpoint denoise_online (d : dude) (s : online) (observations : list Z) : online * res (list (estimate * F)) :=
  match observations with
  | [] => (s, Ok [])
  | o :: t =>
      match denoise_sample d s o with
      | (s, Err e) => (s, Err e)
      | (s, Ok r) => match denoise_online d s t with
                     | (s, Err e) => (s, Err e)
                     | (s, Ok rs) => (s, Ok (r :: rs))
                     end
      end
  end.

(** OnlineDude.initial_context; inference/dude.py:98-105. *)
Definition initial_context (d : dude) (s : online) (context : list Z) : online * res unit :=
  if (Z.of_nat (length context) =? d_k d)%Z then (Online (o_contexts s) context, Ok tt) else (s, Err ValueError).

(** OnlineDude.reset; inference/dude.py:107-110. *)
Definition dude_reset (s : online) : online := Online [] [].

(** DUDE.denoise_sample; inference/dude.py:136-165: the attribute _last_context, read first, is never set. *)
Definition dude_denoise_sample (d : dude) (observation : Z) : res (estimate * F) := Err AttributeError.

(** An index of an array of n entries, negative ones counted from the end. See inference/dude.py:185-191. *)
Definition array_index (n : nat) (i : Z) : res nat :=
  if ((0 <=? i)%Z && (i <? Z.of_nat n)%Z)%bool then Ok (Z.to_nat i)
  else if ((- Z.of_nat n <=? i)%Z && (i <? 0)%Z)%bool then Ok (Z.to_nat (i + Z.of_nat n)) else Err IndexError.

(** The two sides of a position; inference/dude.py:187-188, 201. *)
Definition two_sides (k : nat) (obs : list Z) (i : nat) : list Z * list Z := (slice obs (i - k) i, slice obs (i + 1) (i + k + 1)).
(** Equality of two-sided contexts; inference/dude.py:187-188, 201. *)
Definition sides_eqb (a b : list Z * list Z) : bool := (zs_eqb (fst a) (fst b) && zs_eqb (snd a) (snd b))%bool.

(** The empirical distribution; inference/dude.py:185-191. *)
Definition batch_contexts (d : dude) (k : nat) (obs : list Z) : res (list ((list Z * list Z) * list Z)) :=
  fold_res (fun contexts i =>
      let c := two_sides k obs i in
      let counts := match dict_get sides_eqb contexts c with Some x => x | None => repeat 0%Z (d_size d) end in
      do! a <- array_index (d_size d) (nth i obs 0%Z) in
      Ok (dict_set sides_eqb contexts c (bump counts a)))
    (seq k (length obs - 2 * k)) [].

(** Rows of estimates for border observations; inference/dude.py:176-177 (hard), 180-181 (soft, np.eye(n)[observations]). *)
Definition border (d : dude) (obs : list Z) : res (list estimate) :=
  if d_hard d then Ok (map Hard obs) else map_res (fun o => do! a <- array_index (d_size d) o in Ok (Soft (unit_row (d_size d) a))) obs.

(** DUDE.denoise_sequence; inference/dude.py:167-217, with 0 <= k: the estimates and the mean of the costs. *)
Definition denoise_batch (d : dude) (obs : list Z) : res (list estimate * F) :=
  let n := length obs in
  let k := Z.to_nat (d_k d) in
  let zero := if d_hard d then Hard 0 else Soft (repeat (fz FO 0) (d_size d)) in
  let from := if Nat.eqb k 0 then 0 else n - k in     (* where the slice [-k:] starts *)
  do! first <- border d (firstn k obs) in
  let estimates := first ++ repeat zero (n - k) in
  do! last <- border d (skipn from obs) in
  let estimates := firstn from estimates ++ last in
  do! contexts <- batch_contexts d k obs in
  do! r <- fold_res (fun ec i =>
             do! counts <- match dict_get sides_eqb contexts (two_sides k obs i) with Some c => Ok c | None => Err KeyError end in
             do! a <- array_index (d_size d) (nth i obs 0%Z) in
             do! x <- decide d counts a in
             Ok (set_nth (fst ec) i (fst x), set_nth (snd ec) i (snd x)))
           (seq k (n - 2 * k)) (estimates, repeat (fz FO 0) n) in
  Ok (fst r, fmean FO (snd r)).
End Dude.
Arguments Hard {FO}.
Arguments Soft {FO}.
