(** Model of decoders/classifying_DUDE_decoder.py: ClassifyingDudeDecoder.
    Simplified: channel_llr is an array of floats.  All the denoisers share their matrices, so their configuration is kept once. *)
From Coq Require Import List ZArith Bool.
From Verif.Model Require Import Py Float InfoTheory Clustering Dude DecoderBase.
Import ListNotations.

Section DudeDecoder.
Variable FO : fops.
Notation F := (F FO).
(** scipy's Kullback-Leibler divergence, used by the classifier. *)
Variable kl : list F -> list F -> F.
(** The rest of the LDPC answer: number of iterations. *)
Context {X : Type}.

(** The attributes that never change; decoders/classifying_DUDE_decoder.py:29-59. *)
Record dd_conf := DdConf {
  dd_idx : list nat; dd_length : nat; dd_clip : F; dd_dude : dude FO; dd_center : F; dd_slope : F; dd_cluster : bool; dd_n : nat
}.
(** The attributes that change: the denoisers of each cluster, data_size, and classifier, which is a BufferClassifier or an int.
    See decoders/classifying_DUDE_decoder.py:29-59. *)
Record dd_state := DdState { dd_dudes : list (list online); dd_size : list Z; dd_classifier : classifier; dd_running : Z }.

(** The constructor; decoders/classifying_DUDE_decoder.py:10-60.  [inv] is np.linalg.inv, called for each denoiser. *)
Definition dd_new (inv : list (list F) -> res (list (list F))) (info_idx : list bool) (model_length : nat) (clip : F) (classifier_training : Z)
  (n_clusters : nat) (context_length : Z) (center slope bit_flip : F) (cluster : Z) : res (dd_conf * dd_state) :=
  let one := fz FO 1 in
  let channel := [[fsub FO one bit_flip; bit_flip]; [bit_flip; fsub FO one bit_flip]] in
  let loss := [[fz FO 0; one]; [one; fz FO 0]] in
  do! d <- (if Nat.eqb (n_clusters * model_length) 0 then Ok (Dude FO channel [] loss context_length false 2)
            else dude_new FO inv channel loss context_length false 2) in
  Ok (DdConf (model_index' info_idx model_length) model_length clip d center slope (negb (Z.eqb cluster 0)) n_clusters,
      DdState (repeat (repeat online_new model_length) n_clusters) (repeat 0%Z n_clusters)
              (classifier_new classifier_training (Z.of_nat n_clusters) CLogLikelihood MHellinger WLinear) (-1)).

Variable c : dd_conf.

(** The label of a buffer; decoders/classifying_DUDE_decoder.py:81-91. *)
Definition dd_label (s : dd_state) (bits : list Z) : dd_state * res Z :=
  if Nat.ltb 1 (dd_n c)
  then if dd_cluster c
       then let '(k, r) := classify FO kl (dd_classifier s) bits in (DdState (dd_dudes s) (dd_size s) k (dd_running s), r)
       else let i := ((dd_running s + 1) mod Z.of_nat (dd_n c))%Z in (DdState (dd_dudes s) (dd_size s) (dd_classifier s) i, Ok i)
  else (s, Ok 0%Z).

(** The probabilities of a one, one denoiser per bit; decoders/classifying_DUDE_decoder.py:121-122. *)
Fixpoint dd_denoise (dudes : list online) (observation : list Z) : list online * res (list F) :=
  match dudes with
  | [] => ([], Ok [])
  | s :: t =>
      match observation with
      | [] => (s :: t, Err IndexError)
      | o :: rest =>
          let '(s, r) := denoise_sample FO (dd_dude c) s o in
          match r with
          | Err e => (s :: t, Err e)
          | Ok (Hard _, _) => (s :: t, Err IndexError)
          | Ok (Soft p, _) =>
              let '(t, rs) := dd_denoise t rest in
              (s :: t, do! ps <- rs in do! p1 <- index p 1 in Ok (p1 :: ps))
          end
      end
  end.

(** model_prediction; decoders/classifying_DUDE_decoder.py:112-128, given data_size and the denoisers of the cluster.  An array of no
    probabilities cannot be indexed by [:, :, 1]. *)
Definition dd_predict (size : Z) (dudes : list online) (observation : list Z) : list online * res (list F) :=
  let confidence := model_confidence FO size (dd_center c) (dd_slope c) in
  let '(dudes, r) := dd_denoise dudes observation in
  (dudes,
   do! p1 <- r in
   match p1 with
   | [] => Err IndexError
   | _ => Ok (map (fun p => fmul FO confidence (flog FO (fdiv FO (fadd FO (fsub FO (fz FO 1) p) (feps FO)) (fadd FO p (feps FO))))) p1)
   end).

(** decode_buffer; decoders/classifying_DUDE_decoder.py:62-110: the new state, the caller's array afterwards (line 101 writes to it) and
    the answer (estimate, soft output, success, iterations, label, denoised bits).  [ldpc] is the decode method of the LDPC decoder. *)
Definition dd_decode (ldpc : list F -> res (list Z * list F * bool * X)) (s : dd_state) (word : list F)
  : dd_state * list F * res (list Z * list F * bool * X * Z * list Z) :=
  match take (hard FO word) (dd_idx c) with
  | Err e => (s, word, Err e)
  | Ok bits =>
      let '(s, lab) := dd_label s bits in
      match lab with
      | Err e => (s, word, Err e)
      | Ok label =>
          if (label <? 0)%Z
          then (s, word, do! (e, llr, ok, x) <- ldpc word in Ok (e, llr, ok, x, label, hard FO word))
          else
            let u := Z.to_nat label in
            match index (dd_size s) u with
            | Err e => (s, word, Err e)
            | Ok n =>
                let n := (n + 1)%Z in
                let s := DdState (dd_dudes s) (set_nth (dd_size s) u n) (dd_classifier s) (dd_running s) in
                match pymax FO (map (fabs FO) word) with
                | Err e => (s, word, Err e)
                | Ok mx =>
                    let clipping := fmul FO (dd_clip c) mx in
                    match index (dd_dudes s) u with
                    | Err e => (s, word, Err e)
                    | Ok dudes =>
                        let '(dudes, r) := dd_predict n dudes bits in
                        let s := DdState (set_nth (dd_dudes s) u dudes) (dd_size s) (dd_classifier s) (dd_running s) in
                        match (do! llr <- r in add_at FO word (dd_idx c) llr) with
                        | Err e => (s, word, Err e)
                        | Ok sum =>
                            let given := map (fun x => fclip FO x (fneg FO clipping) clipping) sum in
                            (s, sum, do! (e, llr, ok, x) <- ldpc given in Ok (e, llr, ok, x, label, hard FO given))
                        end
                    end
                end
            end
      end
  end.
End DudeDecoder.
