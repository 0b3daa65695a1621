(** Specification vocabulary for the remaining methods of the models of fields. *)
From Coq Require Import String List NArith ZArith Bool Reals.
From Verif.Model Require Import Py Float Struct StatModels FieldMethods.
From Verif.Spec Require Import Header RealOps Stats.
Import ListNotations.

(** What is used of the distribution function of the standard normal distribution and of its density. *)
Definition normal_like (Phi : R -> R) : Prop :=
  (forall x, 0 < Phi x < 1)%R /\ (forall x y, x < y -> Phi x < Phi y)%R /\ (forall x, Phi (- x) = 1 - Phi x)%R.
Definition density_like (phi : R -> R) : Prop :=
  (forall x, 0 < phi x)%R /\ (forall x, phi (- x) = phi x)%R /\ (forall x y, 0 <= x < y -> phi y < phi x)%R.

(** The least integer that is not less than a number. *)
Definition ceil_like (ceil : R -> Z) : Prop := forall x, (IZR (ceil x) - 1 < x <= IZR (ceil x))%R.

(** Operations that may add a name to a BufferModel. *)
Section Names.
Variable FO : fops.
Inductive name_event := NAdd (name : string) (s : sample_arg) (type : string) | NSet (name : string) (f : field_model FO).
Definition name_step (m : buffer_model FO) (e : name_event) : buffer_model FO :=
  match e with
  | NAdd name s type => match bm_add_sample FO m name s type with Ok m => m | Err _ => m end
  | NSet name f => bm_setitem FO m name f
  end.

Definition event_name (e : name_event) : string := match e with NAdd name _ _ => name | NSet name _ => name end.

(** The types that a field can have. *)
Definition a_type (ty : string) : Prop := exists sz ch, ctype ty sz ch.

(** The names in the order in which they came first; a sample of an unknown type brings no name. *)
Inductive came : list name_event -> list string -> Prop :=
| came_nil : came [] []
| came_old h l e : came h l -> In (event_name e) l -> came (h ++ [e]) l
| came_set h l name f : came h l -> ~ In name l -> came (h ++ [NSet name f]) (l ++ [name])
| came_add h l name s ty : came h l -> ~ In name l -> a_type ty -> came (h ++ [NAdd name s ty]) (l ++ [name])
| came_bad h l name s ty : came h l -> ~ In name l -> ~ a_type ty -> came (h ++ [NAdd name s ty]) l.
End Names.
