(** Model of the enumerations that a dialect module builds when it is imported; mavlink_utils/HC_dialect.py:259-2030 and the same lines of minimal_dialect.py.
    Simplified: the texts of descriptions and parameters are left out. *)
From Coq Require Import String List NArith.
From Verif.Model Require Import Py EnumTable.
Import ListNotations.

(** EnumEntry: name, and the keys of param in the order of insertion; mavlink_utils/HC_dialect.py:261-265. *)
Record enum_entry := EnumEntry { en_name : string; en_params : list N }.
(** The names that the statements bind: the constants and enums; mavlink_utils/HC_dialect.py:267-272. *)
Record names := Names { nm_consts : list (string * N); nm_enums : list (string * list (N * enum_entry)) }.

(** The key is added at the end unless it is there; mavlink_utils/HC_dialect.py:765. *)
Definition add_key (l : list N) (i : N) : list N := if existsb (N.eqb i) l then l else l ++ [i].

(** One statement; mavlink_utils/HC_dialect.py:270-272, 765. *)
Definition exec_stmt (s : names) (x : estmt) : res names :=
  match x with
  | SEnum e => Ok (Names (nm_consts s) (dict_set String.eqb (nm_enums s) e []))
  | SConst n v => Ok (Names (dict_set String.eqb (nm_consts s) n v) (nm_enums s))
  | SEntry e v n => match dict_get String.eqb (nm_enums s) e with
                    | None => Err KeyError
                    | Some d => Ok (Names (nm_consts s) (dict_set String.eqb (nm_enums s) e (dict_set N.eqb d v (EnumEntry n []))))
                    end
  | SParam e v i => match dict_get String.eqb (nm_enums s) e with
                    | None => Err KeyError
                    | Some d => match dict_get N.eqb d v with
                                | None => Err KeyError
                                | Some r => Ok (Names (nm_consts s) (dict_set String.eqb (nm_enums s) e
                                              (dict_set N.eqb d v (EnumEntry (en_name r) (add_key (en_params r) i)))))
                                end
                    end
  end.
(** The part of the import that builds the enumerations; mavlink_utils/HC_dialect.py:267-2030. *)
Definition import_enums (l : list estmt) : res names := fold_res exec_stmt l (Names [] []).
(** enums[e][v], with KeyError when there is none; mavlink_utils/HC_dialect.py:267-272. *)
Definition enum_at (s : names) (e : string) (v : N) : res enum_entry :=
  match dict_get String.eqb (nm_enums s) e with
  | None => Err KeyError
  | Some d => match dict_get N.eqb d v with None => Err KeyError | Some r => Ok r end
  end.
