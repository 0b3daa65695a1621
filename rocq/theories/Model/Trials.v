(** Model of scripts/clustering_trials.py and of the training part of runs/clsutering_analysis/cluster_mnist.py.  The draws of the generator are
    parameters; saving the words (savemat) is not modelled. *)
From Coq Require Import String.
From Coq Require Import List Arith ZArith Bool.
From Verif.Model Require Import Py Float InfoTheory Clustering Legacy.
Import ListNotations.

(** A part of a transmission, b[start:stop] or b[start:], and the number of random bits that follow it. See scripts/clustering_trials.py:56-81. *)
Record part := Part { pt_from : nat; pt_to : option nat; pt_pad : nat }.
(** Option 1: k = 648, parts b[:576] and b[576:]; scripts/clustering_trials.py:16-36. *)
Definition option_1 : list part := [Part 0 (Some 576) (648 - 576); Part 576 None 0].
(** Option 2: k = 486, parts b[:416], b[416:864] and b[864:]; scripts/clustering_trials.py:56-81. *)
Definition option_2 : list part := [Part 0 (Some 416) (486 - 416); Part 416 (Some 864) (486 - (864 - 416)); Part 864 None (486 - (1224 - 864))].

Section Words.
(** What the generator draws for part [c] of transmission [t]. *)
Variable pad : nat -> nat -> nat -> list Z.
Variable errors : nat -> nat -> list nat.

(** corrupted = BitArray(b[...] + Bits(auto=rng.integers(...))), then the errors; scripts/clustering_trials.py:26-36, 66-81. *)
Definition trial_word (t c : nat) (b : list Z) (p : part) : res (list Z) :=
  toggle (slice b (pt_from p) (match pt_to p with Some j => j | None => length b end) ++ pad t c (pt_pad p)) (errors t c).
(** buffers.append((Bits(corrupted), class)); same lines. See scripts/clustering_trials.py:15-52, 55-95. *)
Definition trial_words (parts : list part) (rows : list (list Z)) : res (list (list Z * nat)) :=
  do! l <- map_res (fun tr => map_res (fun cp => do! w <- trial_word (fst tr) (fst cp) (snd tr) (snd cp) in Ok (w, fst cp)) (combine (seq 0 (length parts)) parts))
                   (combine (seq 0 (length rows)) rows) in
  Ok (concat l).
End Words.

Section Labels.
Variable FO : fops.
Variable kl : list (F FO) -> list (F FO) -> F FO.

(** labels[idx] = classifier.classify(b[0]); scripts/clustering_trials.py:44-51, 87-94.  labels is an array of integers. *)
Definition trial_labels (n_training nc : nat) (words : list (list Z)) : res (list Z) :=
  do! (labels, _) <- fold_res (fun (sl : list Z * classifier) b =>
      let '(s, r) := classify FO kl (snd sl) b in do! l <- r in Ok (fst sl ++ [l], s)) words
      ([], classifier_new (Z.of_nat n_training) (Z.of_nat nc) CLogLikelihood MHellinger WSqrt) in
  Ok labels.

(** l[start::step]; [skip] are the elements to skip before the next one. See scripts/clustering_trials.py:52, 95. *)
Fixpoint stride {A} (l : list A) (skip step : nat) : list A :=
  match l with
  | [] => []
  | x :: t => match skip with 0 => x :: stride t (step - 1) step | S k => stride t k step end
  end.
(** result = [np.unique(labels[n_training - 1 + i::n_classes], return_counts=True) for i in range(n_classes)];
    scripts/clustering_trials.py:52, 95. *)
Definition trial_result (n_training nc : nat) (labels : list Z) : list (list (Z * nat)) :=
  map (fun i => unique_counts (stride labels (n_training - 1 + i) nc)) (seq 0 nc).

(** One option; scripts/clustering_trials.py:15-52, 55-95. *)
Definition trial (pad : nat -> nat -> nat -> list Z) (errors : nat -> nat -> list nat) (parts : list part) (n_training : nat) (rows : list (list Z))
  : res (list (list (Z * nat))) :=
  do! words <- trial_words pad errors parts rows in
  do! labels <- trial_labels n_training (length parts) (map fst words) in
  Ok (trial_result n_training (length parts) labels).

(** The methods of BufferClassifier; inference/clustering.py:42, 62, 91, 96. *)
Definition classifier_methods : list string := ["__init__"; "classify"; "_BufferClassifier__add_cluster"; "merge_clusters"]%string.
(** obj.name(...) for a method without effect on what follows; AttributeError if there is none. See runs/clsutering_analysis/cluster_mnist.py:16-27. *)
Definition call_method (methods : list string) (name : string) : res unit :=
  if existsb (String.eqb name) methods then Ok tt else Err AttributeError.
(** The digits: the classifier is trained with the training words, saved, and used; runs/clsutering_analysis/cluster_mnist.py:16-27.  The labels of the
    test words. *)
Definition digits (train test : list (list Z)) : res (list Z) :=
  do! s <- fold_res (fun s b => let '(s, r) := classify FO kl s b in do! _ <- r in Ok s) train
             (classifier_new (Z.of_nat (length train)) 10 CLogLikelihood MHellinger WLinear) in
  do! _ <- call_method classifier_methods "save"%string in
  do! (labels, _) <- fold_res (fun (sl : list Z * classifier) b => let '(s, r) := classify FO kl (snd sl) b in do! l <- r in Ok (fst sl ++ [l], s)) test ([], s) in
  Ok labels.
End Labels.
