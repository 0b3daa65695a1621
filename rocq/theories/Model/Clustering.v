(** Model of inference/clustering.py.
    Simplified: counters are unbounded integers; two count matrices with different numbers of rows never broadcast. *)
From Coq Require Import List ZArith Bool.
From Verif.Model Require Import Py Float BitOps InfoTheory.
Import ListNotations.

(** A list comprehension over pairs. See inference/clustering.py:16-18. *)
Definition zip_with {A B C} (f : A -> B -> C) (l : list A) (l' : list B) : list C := map (fun xy => f (fst xy) (snd xy)) (combine l l').

Section Clustering.
Variable FO : fops.
Notation F := (F FO).

(** scipy.stats.entropy(p, q, base=2) of two rows, the Kullback-Leibler divergence (external). *)
Variable kl : list F -> list F -> F.

(** Cluster; inference/clustering.py:10-14: the count matrix _data (its rows and its number of columns), uid, n_samples. *)
Record cluster := Cluster { c_rows : list (list Z); c_cols : nat; c_uid : Z; c_n : Z }.

(** Cluster.dist; inference/clustering.py:20-22. *)
Definition c_dist (c : cluster) : list (list F) := map (map (fun v => fdiv FO (fz FO v) (fz FO (c_n c)))) (c_rows c).

(** [a[:, j]]: IndexError when there is no such column. See inference/clustering.py:20-22. *)
Definition column {A} (rows : list (list A)) (cols j : nat) (d : A) : res (list A) :=
  if Nat.ltb j cols then Ok (map (fun r => nth j r d) rows) else Err IndexError.

(** Cluster.hard_bits; inference/clustering.py:16-18. *)
Definition hard_bits (c : cluster) : res (list Z) :=
  do! ones <- column (c_rows c) (c_cols c) 1 0%Z in
  do! zeros <- column (c_dist c) (c_cols c) 0 (fz FO 0) in
  Ok (zip_with (fun o z => if flt FO z (fz FO o) then 1%Z else 0%Z) ones zeros).

(** [a[:, j] += v] for a vector of 0/1: IndexError without the column, ValueError when the lengths do not match (a vector of
    length one is repeated). See inference/clustering.py:24-28. *)
Definition add_column (rows : list (list Z)) (cols j : nat) (v : list Z) : res (list (list Z)) :=
  if Nat.ltb j cols
  then match v with
       | [x] => Ok (map (fun r => set_nth r j (nth j r 0 + x)%Z) rows)
       | _ => if Nat.eqb (length v) (length rows) then Ok (zip_with (fun r x => set_nth r j (nth j r 0 + x)%Z) rows v) else Err ValueError
       end
  else Err IndexError.

(** Cluster.add_sample; inference/clustering.py:24-28.  The first column stays updated when the second update raises. *)
Definition add_sample (c : cluster) (buffer : list Z) : cluster * res unit :=
  let is v := map (fun b => if (b =? v)%Z then 1%Z else 0%Z) buffer in
  match add_column (c_rows c) (c_cols c) 0 (is 0%Z) with
  | Err e => (c, Err e)
  | Ok rows =>
      match add_column rows (c_cols c) 1 (is 1%Z) with
      | Err e => (Cluster rows (c_cols c) (c_uid c) (c_n c), Err e)
      | Ok rows' => (Cluster rows' (c_cols c) (c_uid c) (c_n c + 1), Ok tt)
      end
  end.

(** Cluster.merge_cluster; inference/clustering.py:30-32: the second matrix is broadcast to the shape of the first. *)
Definition merge_cluster (c c' : cluster) : res cluster :=
  if (Nat.eqb (length (c_rows c)) (length (c_rows c')) && (Nat.eqb (c_cols c) (c_cols c') || Nat.eqb (c_cols c') 1))%bool
  then Ok (Cluster (zip_with (fun r r' => if Nat.eqb (c_cols c') 1 then map (fun x => (x + nth 0 r' 0)%Z) r else zip_with Z.add r r')
                             (c_rows c) (c_rows c'))
                   (c_cols c) (c_uid c) (c_n c + c_n c'))
  else Err ValueError.

(** BufferClassifier; inference/clustering.py:41-60. *)
Inductive classify_dist := CHamming | CLogLikelihood.
(** The argument merge_dist_metric; inference/clustering.py:41-60. *)
Inductive merge_dist := MKlDiv | MHellinger.
(** The argument weight_scheme; inference/clustering.py:41-60. *)
Inductive weight_scheme := WSqrt | WLinear | WNone.
(** The attributes of BufferClassifier; inference/clustering.py:41-60. *)
Record classifier := Classifier {
  k_min : Z; k_k : Z; k_clusters : list cluster; k_init : bool; k_uid : Z; k_samples : Z;
  k_classify : classify_dist; k_merge : merge_dist; k_weight : weight_scheme
}.
(** BufferClassifier(...); inference/clustering.py:41-60. *)
Definition classifier_new (min_data_size k : Z) (cd : classify_dist) (md : merge_dist) (ws : weight_scheme) : classifier :=
  Classifier min_data_size k [] false 0 0 cd md ws.

(** The cluster made of one sample: Cluster(prob(sample), uid) for the column vector of the buffer; inference/clustering.py:65-66,
    11-14, 91-94.  Simplified: the relative frequencies of a single sample, times 1, are taken as the integers 0 and 1. *)
Definition new_cluster (buffer : list Z) (uid : Z) : res cluster :=
  let alphabet := unique buffer in
  do! rows <- map_res (fun b => count_row alphabet [b]) buffer in
  Ok (Cluster (map (map Z.of_nat) rows) (length alphabet) uid 1).

(** itertools.combinations(range(n), 2). See inference/clustering.py:97-119. *)
Definition pairs (n : nat) : list (nat * nat) := flat_map (fun i => map (fun j => (i, j)) (seq (S i) (n - S i))) (seq 0 n).

(** The weight of a pair; inference/clustering.py:102-108. *)
Definition pair_weight (ws : weight_scheme) (c c' : cluster) : F :=
  let mx := fdiv FO (fz FO (c_n c + c_n c')) (fz FO 2) in
  match ws with WSqrt => fsqrt FO mx | WLinear => mx | WNone => fz FO 1 end.

(** The weighted distance of a pair; inference/clustering.py:109-114. *)
Definition pair_dist (md : merge_dist) (ws : weight_scheme) (c c' : cluster) : res F :=
  do! l <- match md with
           | MKlDiv =>
               if Nat.eqb (length (c_rows c)) (length (c_rows c'))
               then Ok (zip_with (fun p q => fclip FO (fadd FO (kl p q) (kl q p)) (fz FO 0) (fz FO 10)) (c_dist c) (c_dist c'))
               else Err ValueError
           | MHellinger => hellinger FO (FMat (c_dist c)) (FMat (c_dist c'))
           end in
  Ok (fmul FO (pair_weight ws c c') (fmean FO l)).

(** The search for the pair of least distance; inference/clustering.py:100-117.  [best] holds min_dist and pair. *)
Fixpoint best_pair (md : merge_dist) (ws : weight_scheme) (cs : list cluster) (ps : list (nat * nat)) (best : option (F * (nat * nat)))
  : res (option (F * (nat * nat))) :=
  match ps with
  | [] => Ok best
  | (i, j) :: t =>
      do! c <- index cs i in
      do! c' <- index cs j in
      do! d <- pair_dist md ws c c' in
      best_pair md ws cs t (match best with
                            | Some (m, _) => if flt FO d m then Some (d, (i, j)) else best
                            | None => Some (d, (i, j))
                            end)
  end.

(** The while loop; inference/clustering.py:97-119.  [pair] is the local variable of that name, which survives from one round to the
    next.  Every round pops a cluster or raises, so [fuel] above the number of clusters is never used up. *)
Fixpoint merge_loop (fuel : nat) (k : Z) (md : merge_dist) (ws : weight_scheme) (cs : list cluster) (pair : option (nat * nat))
  : list cluster * res unit :=
  match fuel with
  | O => (cs, Err RuntimeError)
  | S f =>
      if (k <? Z.of_nat (length cs))%Z
      then match best_pair md ws cs (pairs (length cs)) None with
           | Err e => (cs, Err e)
           | Ok b =>
               let pair := match b with Some (_, p) => Some p | None => pair end in
               match pair with
               | None => (cs, Err UnboundLocal)
               | Some (i, j) =>
                   match nth_error cs j with
                   | None => (cs, Err IndexError)
                   | Some c' =>
                       let cs' := firstn j cs ++ skipn (S j) cs in
                       match nth_error cs' i with
                       | None => (cs', Err IndexError)
                       | Some c => match merge_cluster c c' with
                                   | Err e => (cs', Err e)
                                   | Ok m => merge_loop f k md ws (set_nth cs' i m) pair
                                   end
                       end
                   end
               end
           end
      else (cs, Ok tt)
  end.

(** BufferClassifier.merge_clusters; inference/clustering.py:96-121. *)
Definition merge_clusters (s : classifier) : classifier * res unit :=
  let with_clusters cs := Classifier (k_min s) (k_k s) cs (k_init s) (k_uid s) (k_samples s) (k_classify s) (k_merge s) (k_weight s) in
  match merge_loop (S (length (k_clusters s))) (k_k s) (k_merge s) (k_weight s) (k_clusters s) None with
  | (cs, Err e) => (with_clusters cs, Err e)
  | (cs, Ok _) => (with_clusters (zip_with (fun i c => Cluster (c_rows c) (c_cols c) (Z.of_nat i) (c_n c)) (seq 0 (length cs)) cs), Ok tt)
  end.

(** np.finfo(np.float_).eps. See inference/clustering.py:80-83. *)
Definition feps : F := fdiv FO (fz FO 1) (fz FO 4503599627370496).

(** The log likelihood of a buffer; inference/clustering.py:80-83. *)
Definition log_likelihood (c : cluster) (buffer : list Z) : res F :=
  do! p1 <- column (c_dist c) (c_cols c) 1 (fz FO 0) in
  do! a <- broadcast (fun p b => fmul FO (flog FO (fadd FO p feps)) (fz FO b)) p1 buffer in
  do! p0 <- column (c_dist c) (c_cols c) 0 (fz FO 0) in
  do! a' <- broadcast (fun p b => fmul FO (flog FO (fadd FO p feps)) (fz FO (1 - b))) p0 buffer in
  do! l <- broadcast (fadd FO) a a' in
  Ok (fmean FO (map (fun x => fclip FO x (fz FO (-100)) (fz FO 0)) l)).

(** The loop over the clusters with a metric and an order: index of the closest; inference/clustering.py:72-86. *)
Fixpoint closest {M} (better : M -> M -> bool) (metric : cluster -> res M) (cs : list cluster) (i : nat) (best : option (M * nat))
  : res (option (M * nat)) :=
  match cs with
  | [] => Ok best
  | c :: t =>
      do! d <- metric c in
      closest better metric t (S i) (match best with Some (m, _) => if better d m then Some (d, i) else best | None => Some (d, i) end)
  end.

(** The index of the closest cluster; inference/clustering.py:72-86, UnboundLocalError (raised in line 88) without clusters. *)
Definition closest_index (s : classifier) (buffer : list Z) : res nat :=
  match k_classify s with
  | CHamming =>
      do! b <- closest Nat.ltb (fun c => do! h <- hard_bits c in hamming_distance (HArray buffer) (HArray h) 8) (k_clusters s) 0 None in
      match b with Some (_, i) => Ok i | None => Err UnboundLocal end
  | CLogLikelihood =>
      do! b <- closest (fun d m => flt FO m d) (fun c => log_likelihood c buffer) (k_clusters s) 0 None in
      match b with Some (_, i) => Ok i | None => Err UnboundLocal end
  end.

(** BufferClassifier.classify; inference/clustering.py:62-89.  The state is returned also when it raises. *)
Definition classify (s : classifier) (buffer : list Z) : classifier * res Z :=
  let upd cs init uid := Classifier (k_min s) (k_k s) cs init uid (k_samples s + 1) (k_classify s) (k_merge s) (k_weight s) in
  let s := upd (k_clusters s) (k_init s) (k_uid s) in
  if (k_samples s <? k_min s)%Z
  then match new_cluster buffer (k_uid s) with
       | Err e => (s, Err e)
       | Ok c => (upd (k_clusters s ++ [c]) (k_init s) (k_uid s + 1)%Z, Ok (-1)%Z)
       end
  else
    match (if k_init s then (s, Ok tt) else merge_clusters s) with
    | (s, Err e) => (s, Err e)
    | (s, Ok _) =>
        let s := upd (k_clusters s) true (k_uid s) in
        match closest_index s buffer with
        | Err e => (s, Err e)
        | Ok i => match nth_error (k_clusters s) i with
                  | None => (s, Err IndexError)
                  | Some c => match add_sample c buffer with
                              | (c, r) => (upd (set_nth (k_clusters s) i c) true (k_uid s), do! _ <- r in Ok (c_uid c))
                              end
                  end
        end
    end.
End Clustering.
