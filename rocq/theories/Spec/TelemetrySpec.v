(** Specification of the telemetry buffers made from a recording. *)
From Coq Require Import String Ascii List NArith ZArith Bool.
From Verif.Model Require Import Py Dialect Struct Mavlink MsgCreator.
From Verif.Spec Require Import Bytes Header Frame.
Import ListNotations.

(** What the columns of the tables of the recording are (after the time), by the names of the message fields. *)
Definition columns (id : N) : list string :=
  (if N.eqb id 33 then ["lat"; "lon"; "alt"; "relative_alt"; "bottom_clearnce"; "depth"; "vx"; "vy"; "vz"; "hdg"]
   else if N.eqb id 234 then ["range"; "azimuth"]
   else if N.eqb id 30 then ["roll"; "pitch"; "yaw"; "rollspeed"; "pitchspeed"; "yawspeed"]
   else if N.eqb id 212 then ["Speed_of_Sound"; "Depth"; "Reserved"; "Temperature"; "Status"]
   else if N.eqb id 218 then ["temperature"; "humidity"; "chamber_num"; "pressure"]
   else [])%string.

(** The value called [name] in row [i] of the table. *)
Definition recorded (id : N) (s : series) (i : nat) (name : string) (v : pyval) : Prop :=
  (name = "time_boot_ms"%string /\ exists x, nth_error (s_time s) i = Some x /\ v = VInt x) \/
  (exists k col, nth_error (columns id) k = Some name /\ nth_error (s_cols s) k = Some col /\ nth_error col i = Some v).

(** Row [i] is the first that is not before [t]; or there is none, and it is row 0. *)
Definition first_from (times : list Z) (t : Z) (i : nat) : Prop :=
  i < List.length times /\ (t <= nth i times 0)%Z /\ forall j, j < i -> (nth j times 0 < t)%Z.
Definition all_before (times : list Z) (t : Z) : Prop := times <> [] /\ forall x, In x times -> (x < t)%Z.
Definition chosen (times : list Z) (t : Z) (i : nat) : Prop := first_from times t i \/ (all_before times t /\ i = 0).

(** The messages of a buffer: id, table, first byte, end. *)
Definition layout (r : recording) : list (N * series * nat * nat) :=
  [(33%N, r_position r, 0, 52); (234%N, r_pinger r, 52, 72); (30%N, r_attitude r, 72, 108); (212%N, r_svs r, 108, 135); (218%N, r_chamber r, 135, 153)].

(** The row chosen for time [t] has a value for every field of the message, and the field can hold it. *)
Definition usable (id : N) (s : series) (t : Z) : Prop :=
  exists i c, chosen (s_time s) t i /\ is_msg id c /\
    forall f, f < f_count c -> exists v, recorded id s i (nth f (mc_fieldnames c) ""%string) v /\ c_ok (f_type c f) v.
Definition usable_all (r : recording) (t : Z) : Prop :=
  usable 33 (r_position r) t /\ usable 234 (r_pinger r) t /\ usable 30 (r_attitude r) t /\ usable 212 (r_svs r) t /\ usable 218 (r_chamber r) t.

(** The decoded message [d] shows row [i] of the table. *)
Definition shows_row (id : N) (s : series) (i : nat) (d : decoded) : Prop :=
  d_msgId d = id /\ List.length (d_fields d) = List.length (mc_fieldnames (d_class d)) /\
  forall f, f < List.length (mc_fieldnames (d_class d)) ->
    exists v, recorded id s i (nth f (mc_fieldnames (d_class d)) ""%string) v /\ nth f (d_fields d) (FText []) = FOne v.

(** The times from [a] on, below [b], [step] apart. *)
Definition every (a b step : Z) (l : list Z) : Prop :=
  forall k x, nth_error l k = Some x <-> x = (a + Z.of_nat k * step)%Z /\ (x < b)%Z.
