(** GENERATED by tools/gen_dialect.py from /repo/mavlink_utils/minimal_dialect.py.  Do not edit by hand. *)
From Coq Require Import List NArith String.
From Verif.Model Require Import Dialect.
Import ListNotations.
Local Open Scope string_scope.

(** The values of [mavlink_map], in insertion order; mavlink_utils/minimal_dialect.py:2272-2279. *)
Definition minimal_classes : list msg_class :=
[
  (* MAVLink_heartbeat_message, lines 2040-2079 *)
  MC 0%N 0%N "HEARTBEAT"
     ["type"; "autopilot"; "base_mode"; "custom_mode"; "system_status"; "mavlink_version"]
     ["custom_mode"; "type"; "autopilot"; "base_mode"; "system_status"; "mavlink_version"]
     ["uint8_t"; "uint8_t"; "uint8_t"; "uint32_t"; "uint8_t"; "uint8_t"]
     "<IBBBBB" [1; 2; 3; 0; 4; 5]%nat [1; 1; 1; 1; 1; 1]%nat [0; 0; 0; 0; 0; 0]%nat 50%N "<IBBBBB" 50%N "<IBBBBB";
  (* MAVLink_global_position_int_message, lines 2081-2124 *)
  MC 33%N 33%N "GLOBAL_POSITION_INT"
     ["time_boot_ms"; "lat"; "lon"; "alt"; "relative_alt"; "bottom_clearnce"; "depth"; "vx"; "vy"; "vz"; "hdg"]
     ["time_boot_ms"; "lat"; "lon"; "alt"; "relative_alt"; "bottom_clearnce"; "depth"; "vx"; "vy"; "vz"; "hdg"]
     ["uint32_t"; "int32_t"; "int32_t"; "float"; "float"; "float"; "float"; "float"; "float"; "float"; "float"]
     "<Iiiffffffff" [0; 1; 2; 3; 4; 5; 6; 7; 8; 9; 10]%nat [1; 1; 1; 1; 1; 1; 1; 1; 1; 1; 1]%nat [0; 0; 0; 0; 0; 0; 0; 0; 0; 0; 0]%nat 146%N "<Iiiffffffff" 146%N "<Iiiffffffff";
  (* MAVLink_scaled_svs_message, lines 2126-2161 *)
  MC 212%N 212%N "SCALED_SVS"
     ["time_boot_ms"; "Speed_of_Sound"; "Depth"; "Temperature"; "Status"; "Reserved"]
     ["time_boot_ms"; "Speed_of_Sound"; "Depth"; "Reserved"; "Temperature"; "Status"]
     ["uint32_t"; "float"; "float"; "uint16_t"; "uint8_t"; "float"]
     "<IfffHB" [0; 1; 2; 4; 5; 3]%nat [1; 1; 1; 1; 1; 1]%nat [0; 0; 0; 0; 0; 0]%nat 205%N "<IfffHB" 205%N "<IfffHB";
  (* MAVLink_chamber_status_message, lines 2163-2198 *)
  MC 218%N 218%N "CHAMBER_STATUS"
     ["time_boot_ms"; "chamber_num"; "pressure"; "temperature"; "humidity"]
     ["time_boot_ms"; "temperature"; "humidity"; "chamber_num"; "pressure"]
     ["uint32_t"; "uint8_t"; "uint8_t"; "uint16_t"; "uint16_t"]
     "<IHHBB" [0; 3; 4; 1; 2]%nat [1; 1; 1; 1; 1]%nat [0; 0; 0; 0; 0]%nat 28%N "<IHHBB" 28%N "<IHHBB";
  (* MAVLink_system_status_2_message, lines 2200-2235 *)
  MC 225%N 225%N "SYSTEM_STATUS_2"
     ["time_boot_ms"; "hc_mode"; "hc_system_status"; "hc_err_id"; "debug1"; "debug2"]
     ["time_boot_ms"; "hc_err_id"; "debug1"; "debug2"; "hc_mode"; "hc_system_status"]
     ["uint32_t"; "uint16_t"; "uint16_t"; "uint32_t"; "float"; "float"]
     "<IIffHH" [0; 4; 5; 1; 2; 3]%nat [1; 1; 1; 1; 1; 1]%nat [0; 0; 0; 0; 0; 0]%nat 101%N "<IIffHH" 101%N "<IIffHH";
  (* MAVLink_pinger_data_message, lines 2237-2269 *)
  MC 234%N 234%N "PINGER_DATA"
     ["time_boot_ms"; "range"; "azimuth"]
     ["time_boot_ms"; "range"; "azimuth"]
     ["uint32_t"; "float"; "float"]
     "<Iff" [0; 1; 2]%nat [1; 1; 1]%nat [0; 0; 0]%nat 126%N "<Iff" 126%N "<Iff"
].
