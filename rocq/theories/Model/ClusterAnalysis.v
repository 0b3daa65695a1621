(** The comparison of clustering methods; runs/clsutering_analysis/clustering_analysis.py. *)
From Coq Require Import List ZArith Arith Bool.
From Verif.Model Require Import Py Float InfoTheory Perf Clustering Relabel.
Import ListNotations.

(** np.bitwise_xor with the array of the wrong positions; clustering_analysis.py:74-77. *)
Definition xor_at (word : list Z) (wrong : list nat) : list Z :=
  map (fun ix => if existsb (Nat.eqb (fst ix)) wrong then (1 - snd ix)%Z else snd ix) (combine (seq 0 (length word)) word).

Section Analysis.
(** What the generator draws for class [c] of transmission [t]: the bits of padding (of a given number) and the wrong positions. *)
Variable pad : nat -> nat -> nat -> list Z.
Variable wrong : nat -> nat -> list nat.

(** One word; clustering_analysis.py:66-78.  ValueError: a negative number of bits to draw, or a word that does not fit the row. *)
Definition analysis_word (k w nc no_errors n_training : nat) (train_with_errors : bool) (t : nat) (row : list Z) (c : nat) : res (list Z) :=
  if Nat.ltb k (w / nc) then Err ValueError
  else
    let b := slice row (c * w / nc) ((c + 1) * w / nc) ++ pad t c (k - w / nc) in
    if negb (Nat.eqb (length b) k) then Err ValueError
    else Ok (if (Nat.ltb 0 no_errors && (train_with_errors || Nat.leb n_training t))%bool then xor_at b (wrong t c) else b).

(** The words of all transmissions with their classes; clustering_analysis.py:60-78. *)
Definition analysis_words (k w nc no_errors n_training : nat) (train_with_errors : bool) (rows : list (list Z)) : res (list (list Z * nat)) :=
  do! l <- map_res (fun tr => map_res (fun c => do! b <- analysis_word k w nc no_errors n_training train_with_errors (fst tr) (snd tr) c in Ok (b, c)) (seq 0 nc))
                   (combine (seq 0 (length rows)) rows) in
  Ok (concat l).

Variable FO : fops.
Variable kl : list (F FO) -> list (F FO) -> F FO.

(** analyze_mine; clustering_analysis.py:35-42.  -1 is stored as 255 in an array of numpy.uint8 (numpy 1).  The
    arguments of BufferClassifier are those of the call. *)
Definition cluster_labels (n_training nc : nat) (buffers : list (list Z)) : res (list Z) :=
  do! (labels, _) <- fold_res (fun (sl : list Z * classifier) b =>
      let '(s, r) := classify FO kl (snd sl) b in do! l <- r in Ok (fst sl ++ [(l mod 256)%Z], s)) buffers
      ([], classifier_new (Z.of_nat n_training) (Z.of_nat nc) CLogLikelihood MHellinger WLinear) in
  Ok (skipn n_training labels).

(** The clustering part of analyze; clustering_analysis.py:80-92.  [order] is the order that sklearn's train_test_split gives the words, the
    first [n_training] of them being the training set (the order of the words themselves without shuffling): the true classes of the test words
    and the labels after relabelling. *)
Definition analyze (k w nc no_errors n_training : nat) (train_with_errors : bool) (rows : list (list Z)) (order : list nat) : res (list Z * list Z) :=
  do! words <- analysis_words k w nc no_errors n_training train_with_errors rows in
  do! arranged <- map_res (fun i => index words i) order in
  let y_test := map (fun bc => Z.of_nat (snd bc)) (skipn n_training arranged) in
  do! labels <- cluster_labels n_training nc (map fst arranged) in
  do! (relabeled, _) <- relabel labels nc (Some y_test) in
  Ok (y_test, relabeled).
End Analysis.

(** np.round of a quotient of numbers: the nearest one, the even one of two. See clustering_analysis.py:126, 130. *)
Definition round_div (a b : nat) : nat :=
  let q := a / b in let r := a mod b in
  if Nat.ltb (2 * r) b then q else if Nat.ltb b (2 * r) then S q else if Nat.even q then q else S q.
(** np.round(np.array(cms).mean(axis=0)); clustering_analysis.py:126, 130.  All matrices have [nc] rows and columns. *)
Definition mean_cm (nc : nat) (cms : list (list (list nat))) : list (list nat) :=
  map (fun i => map (fun j => round_div (list_sum (map (fun cm => nth j (nth i cm []) 0) cms)) (length cms)) (seq 0 nc)) (seq 0 nc).
