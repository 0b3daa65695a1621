(** GENERATED by tools/gen_api.py from /repo/mavlink_utils/HC_dialect.py.  Do not edit by hand. *)
From Coq Require Import List ZArith String.
Import ListNotations.
Local Open Scope string_scope.

(** The generated methods of a message class: the parameters of __init__, the assignments self.attribute = parameter, and the arguments that
    pack hands to struct.pack, self.attribute or self.attribute[i]; mavlink_utils/HC_dialect.py:2189-8390, in the order of mavlink_map. *)
Record ctor := Ctor { k_name : string; k_params : list string; k_sets : list (string * string); k_packs : list (string * option nat) }.

(** A generated method of class MAVLink that calls another one: its parameters, the defaults of the last ones, what is called, with which
    arguments; mavlink_utils/HC_dialect.py:8956-14254.  Left out: the parameter force_mavlink1 of the _send methods, which is passed on. *)
Record method := Method { h_name : string; h_params : list string; h_defaults : list Z; h_calls : string; h_args : list string }.

(** The constructors and pack methods; mavlink_utils/HC_dialect.py:2189-8390. *)
Definition ctors : list ctor :=
[
  (* lines 2189-2228 *)
  Ctor "MAVLink_heartbeat_message"
    ["type"; "autopilot"; "base_mode"; "custom_mode"; "system_status"; "mavlink_version"]
    [("type", "type"); ("autopilot", "autopilot"); ("base_mode", "base_mode"); ("custom_mode", "custom_mode"); ("system_status", "system_status"); ("mavlink_version", "mavlink_version")]
    [("custom_mode", None); ("type", None); ("autopilot", None); ("base_mode", None); ("system_status", None); ("mavlink_version", None)];
  (* lines 2230-2287 *)
  Ctor "MAVLink_sys_status_message"
    ["onboard_control_sensors_present"; "onboard_control_sensors_enabled"; "onboard_control_sensors_health"; "load"; "voltage_battery"; "current_battery"; "battery_remaining"; "drop_rate_comm"; "errors_comm"; "errors_count1"; "errors_count2"; "errors_count3"; "errors_count4"]
    [("onboard_control_sensors_present", "onboard_control_sensors_present"); ("onboard_control_sensors_enabled", "onboard_control_sensors_enabled"); ("onboard_control_sensors_health", "onboard_control_sensors_health"); ("load", "load"); ("voltage_battery", "voltage_battery"); ("current_battery", "current_battery"); ("battery_remaining", "battery_remaining"); ("drop_rate_comm", "drop_rate_comm"); ("errors_comm", "errors_comm"); ("errors_count1", "errors_count1"); ("errors_count2", "errors_count2"); ("errors_count3", "errors_count3"); ("errors_count4", "errors_count4")]
    [("onboard_control_sensors_present", None); ("onboard_control_sensors_enabled", None); ("onboard_control_sensors_health", None); ("load", None); ("voltage_battery", None); ("current_battery", None); ("drop_rate_comm", None); ("errors_comm", None); ("errors_count1", None); ("errors_count2", None); ("errors_count3", None); ("errors_count4", None); ("battery_remaining", None)];
  (* lines 2289-2321 *)
  Ctor "MAVLink_system_time_message"
    ["time_unix_usec"; "time_boot_ms"]
    [("time_unix_usec", "time_unix_usec"); ("time_boot_ms", "time_boot_ms")]
    [("time_unix_usec", None); ("time_boot_ms", None)];
  (* lines 2323-2358 *)
  Ctor "MAVLink_ping_message"
    ["time_usec"; "seq"; "target_system"; "target_component"]
    [("time_usec", "time_usec"); ("seq", "seq"); ("target_system", "target_system"); ("target_component", "target_component")]
    [("time_usec", None); ("seq", None); ("target_system", None); ("target_component", None)];
  (* lines 2360-2393 *)
  Ctor "MAVLink_change_operator_control_message"
    ["target_system"; "control_request"; "version"; "passkey"]
    [("target_system", "target_system"); ("control_request", "control_request"); ("version", "version"); ("passkey", "passkey")]
    [("target_system", None); ("control_request", None); ("version", None); ("passkey", None)];
  (* lines 2395-2427 *)
  Ctor "MAVLink_change_operator_control_ack_message"
    ["gcs_system_id"; "control_request"; "ack"]
    [("gcs_system_id", "gcs_system_id"); ("control_request", "control_request"); ("ack", "ack")]
    [("gcs_system_id", None); ("control_request", None); ("ack", None)];
  (* lines 2429-2462 *)
  Ctor "MAVLink_auth_key_message"
    ["key"]
    [("key", "key")]
    [("key", None)];
  (* lines 2464-2500 *)
  Ctor "MAVLink_set_mode_message"
    ["target_system"; "base_mode"; "custom_mode"]
    [("target_system", "target_system"); ("base_mode", "base_mode"); ("custom_mode", "custom_mode")]
    [("custom_mode", None); ("target_system", None); ("base_mode", None)];
  (* lines 2502-2542 *)
  Ctor "MAVLink_param_request_read_message"
    ["target_system"; "target_component"; "param_id"; "param_index"]
    [("target_system", "target_system"); ("target_component", "target_component"); ("param_id", "param_id"); ("param_index", "param_index")]
    [("param_index", None); ("target_system", None); ("target_component", None); ("param_id", None)];
  (* lines 2544-2576 *)
  Ctor "MAVLink_param_request_list_message"
    ["target_system"; "target_component"]
    [("target_system", "target_system"); ("target_component", "target_component")]
    [("target_system", None); ("target_component", None)];
  (* lines 2578-2615 *)
  Ctor "MAVLink_param_value_message"
    ["param_id"; "param_value"; "param_type"; "param_count"; "param_index"]
    [("param_id", "param_id"); ("param_value", "param_value"); ("param_type", "param_type"); ("param_count", "param_count"); ("param_index", "param_index")]
    [("param_value", None); ("param_count", None); ("param_index", None); ("param_id", None); ("param_type", None)];
  (* lines 2617-2660 *)
  Ctor "MAVLink_param_set_message"
    ["target_system"; "target_component"; "param_id"; "param_value"; "param_type"]
    [("target_system", "target_system"); ("target_component", "target_component"); ("param_id", "param_id"); ("param_value", "param_value"); ("param_type", "param_type")]
    [("param_value", None); ("target_system", None); ("target_component", None); ("param_id", None); ("param_type", None)];
  (* lines 2662-2705 *)
  Ctor "MAVLink_gps_raw_int_message"
    ["time_usec"; "fix_type"; "lat"; "lon"; "alt"; "eph"; "epv"; "vel"; "cog"; "satellites_visible"]
    [("time_usec", "time_usec"); ("fix_type", "fix_type"); ("lat", "lat"); ("lon", "lon"); ("alt", "alt"); ("eph", "eph"); ("epv", "epv"); ("vel", "vel"); ("cog", "cog"); ("satellites_visible", "satellites_visible")]
    [("time_usec", None); ("lat", None); ("lon", None); ("alt", None); ("eph", None); ("epv", None); ("vel", None); ("cog", None); ("fix_type", None); ("satellites_visible", None)];
  (* lines 2707-2746 *)
  Ctor "MAVLink_gps_status_message"
    ["satellites_visible"; "satellite_prn"; "satellite_used"; "satellite_elevation"; "satellite_azimuth"; "satellite_snr"]
    [("satellites_visible", "satellites_visible"); ("satellite_prn", "satellite_prn"); ("satellite_used", "satellite_used"); ("satellite_elevation", "satellite_elevation"); ("satellite_azimuth", "satellite_azimuth"); ("satellite_snr", "satellite_snr")]
    [("satellites_visible", None); ("satellite_prn", Some 0); ("satellite_prn", Some 1); ("satellite_prn", Some 2); ("satellite_prn", Some 3); ("satellite_prn", Some 4); ("satellite_prn", Some 5); ("satellite_prn", Some 6); ("satellite_prn", Some 7); ("satellite_prn", Some 8); ("satellite_prn", Some 9); ("satellite_prn", Some 10); ("satellite_prn", Some 11); ("satellite_prn", Some 12); ("satellite_prn", Some 13); ("satellite_prn", Some 14); ("satellite_prn", Some 15); ("satellite_prn", Some 16); ("satellite_prn", Some 17); ("satellite_prn", Some 18); ("satellite_prn", Some 19); ("satellite_used", Some 0); ("satellite_used", Some 1); ("satellite_used", Some 2); ("satellite_used", Some 3); ("satellite_used", Some 4); ("satellite_used", Some 5); ("satellite_used", Some 6); ("satellite_used", Some 7); ("satellite_used", Some 8); ("satellite_used", Some 9); ("satellite_used", Some 10); ("satellite_used", Some 11); ("satellite_used", Some 12); ("satellite_used", Some 13); ("satellite_used", Some 14); ("satellite_used", Some 15); ("satellite_used", Some 16); ("satellite_used", Some 17); ("satellite_used", Some 18); ("satellite_used", Some 19); ("satellite_elevation", Some 0); ("satellite_elevation", Some 1); ("satellite_elevation", Some 2); ("satellite_elevation", Some 3); ("satellite_elevation", Some 4); ("satellite_elevation", Some 5); ("satellite_elevation", Some 6); ("satellite_elevation", Some 7); ("satellite_elevation", Some 8); ("satellite_elevation", Some 9); ("satellite_elevation", Some 10); ("satellite_elevation", Some 11); ("satellite_elevation", Some 12); ("satellite_elevation", Some 13); ("satellite_elevation", Some 14); ("satellite_elevation", Some 15); ("satellite_elevation", Some 16); ("satellite_elevation", Some 17); ("satellite_elevation", Some 18); ("satellite_elevation", Some 19); ("satellite_azimuth", Some 0); ("satellite_azimuth", Some 1); ("satellite_azimuth", Some 2); ("satellite_azimuth", Some 3); ("satellite_azimuth", Some 4); ("satellite_azimuth", Some 5); ("satellite_azimuth", Some 6); ("satellite_azimuth", Some 7); ("satellite_azimuth", Some 8); ("satellite_azimuth", Some 9); ("satellite_azimuth", Some 10); ("satellite_azimuth", Some 11); ("satellite_azimuth", Some 12); ("satellite_azimuth", Some 13); ("satellite_azimuth", Some 14); ("satellite_azimuth", Some 15); ("satellite_azimuth", Some 16); ("satellite_azimuth", Some 17); ("satellite_azimuth", Some 18); ("satellite_azimuth", Some 19); ("satellite_snr", Some 0); ("satellite_snr", Some 1); ("satellite_snr", Some 2); ("satellite_snr", Some 3); ("satellite_snr", Some 4); ("satellite_snr", Some 5); ("satellite_snr", Some 6); ("satellite_snr", Some 7); ("satellite_snr", Some 8); ("satellite_snr", Some 9); ("satellite_snr", Some 10); ("satellite_snr", Some 11); ("satellite_snr", Some 12); ("satellite_snr", Some 13); ("satellite_snr", Some 14); ("satellite_snr", Some 15); ("satellite_snr", Some 16); ("satellite_snr", Some 17); ("satellite_snr", Some 18); ("satellite_snr", Some 19)];
  (* lines 2748-2789 *)
  Ctor "MAVLink_scaled_imu_message"
    ["time_boot_ms"; "xacc"; "yacc"; "zacc"; "xgyro"; "ygyro"; "zgyro"; "xmag"; "ymag"; "zmag"]
    [("time_boot_ms", "time_boot_ms"); ("xacc", "xacc"); ("yacc", "yacc"); ("zacc", "zacc"); ("xgyro", "xgyro"); ("ygyro", "ygyro"); ("zgyro", "zgyro"); ("xmag", "xmag"); ("ymag", "ymag"); ("zmag", "zmag")]
    [("time_boot_ms", None); ("xacc", None); ("yacc", None); ("zacc", None); ("xgyro", None); ("ygyro", None); ("zgyro", None); ("xmag", None); ("ymag", None); ("zmag", None)];
  (* lines 2791-2832 *)
  Ctor "MAVLink_raw_imu_message"
    ["time_usec"; "xacc"; "yacc"; "zacc"; "xgyro"; "ygyro"; "zgyro"; "xmag"; "ymag"; "zmag"]
    [("time_usec", "time_usec"); ("xacc", "xacc"); ("yacc", "yacc"); ("zacc", "zacc"); ("xgyro", "xgyro"); ("ygyro", "ygyro"); ("zgyro", "zgyro"); ("xmag", "xmag"); ("ymag", "ymag"); ("zmag", "zmag")]
    [("time_usec", None); ("xacc", None); ("yacc", None); ("zacc", None); ("xgyro", None); ("ygyro", None); ("zgyro", None); ("xmag", None); ("ymag", None); ("zmag", None)];
  (* lines 2834-2870 *)
  Ctor "MAVLink_raw_pressure_message"
    ["time_usec"; "press_abs"; "press_diff1"; "press_diff2"; "temperature"]
    [("time_usec", "time_usec"); ("press_abs", "press_abs"); ("press_diff1", "press_diff1"); ("press_diff2", "press_diff2"); ("temperature", "temperature")]
    [("time_usec", None); ("press_abs", None); ("press_diff1", None); ("press_diff2", None); ("temperature", None)];
  (* lines 2872-2907 *)
  Ctor "MAVLink_scaled_pressure_message"
    ["time_boot_ms"; "press_abs"; "press_diff"; "temperature"]
    [("time_boot_ms", "time_boot_ms"); ("press_abs", "press_abs"); ("press_diff", "press_diff"); ("temperature", "temperature")]
    [("time_boot_ms", None); ("press_abs", None); ("press_diff", None); ("temperature", None)];
  (* lines 2909-2946 *)
  Ctor "MAVLink_attitude_message"
    ["time_boot_ms"; "roll"; "pitch"; "yaw"; "rollspeed"; "pitchspeed"; "yawspeed"]
    [("time_boot_ms", "time_boot_ms"); ("roll", "roll"); ("pitch", "pitch"); ("yaw", "yaw"); ("rollspeed", "rollspeed"); ("pitchspeed", "pitchspeed"); ("yawspeed", "yawspeed")]
    [("time_boot_ms", None); ("roll", None); ("pitch", None); ("yaw", None); ("rollspeed", None); ("pitchspeed", None); ("yawspeed", None)];
  (* lines 2948-2988 *)
  Ctor "MAVLink_attitude_quaternion_message"
    ["time_boot_ms"; "q1"; "q2"; "q3"; "q4"; "rollspeed"; "pitchspeed"; "yawspeed"]
    [("time_boot_ms", "time_boot_ms"); ("q1", "q1"); ("q2", "q2"); ("q3", "q3"); ("q4", "q4"); ("rollspeed", "rollspeed"); ("pitchspeed", "pitchspeed"); ("yawspeed", "yawspeed")]
    [("time_boot_ms", None); ("q1", None); ("q2", None); ("q3", None); ("q4", None); ("rollspeed", None); ("pitchspeed", None); ("yawspeed", None)];
  (* lines 2990-3028 *)
  Ctor "MAVLink_local_position_ned_message"
    ["time_boot_ms"; "x"; "y"; "z"; "vx"; "vy"; "vz"]
    [("time_boot_ms", "time_boot_ms"); ("x", "x"); ("y", "y"); ("z", "z"); ("vx", "vx"); ("vy", "vy"); ("vz", "vz")]
    [("time_boot_ms", None); ("x", None); ("y", None); ("z", None); ("vx", None); ("vy", None); ("vz", None)];
  (* lines 3030-3073 *)
  Ctor "MAVLink_global_position_int_message"
    ["time_boot_ms"; "lat"; "lon"; "alt"; "relative_alt"; "bottom_clearnce"; "depth"; "vx"; "vy"; "vz"; "hdg"]
    [("time_boot_ms", "time_boot_ms"); ("lat", "lat"); ("lon", "lon"); ("alt", "alt"); ("relative_alt", "relative_alt"); ("bottom_clearnce", "bottom_clearnce"); ("depth", "depth"); ("vx", "vx"); ("vy", "vy"); ("vz", "vz"); ("hdg", "hdg")]
    [("time_boot_ms", None); ("lat", None); ("lon", None); ("alt", None); ("relative_alt", None); ("bottom_clearnce", None); ("depth", None); ("vx", None); ("vy", None); ("vz", None); ("hdg", None)];
  (* lines 3075-3117 *)
  Ctor "MAVLink_rc_channels_scaled_message"
    ["time_boot_ms"; "port"; "chan1_scaled"; "chan2_scaled"; "chan3_scaled"; "chan4_scaled"; "chan5_scaled"; "chan6_scaled"; "chan7_scaled"; "chan8_scaled"; "rssi"]
    [("time_boot_ms", "time_boot_ms"); ("port", "port"); ("chan1_scaled", "chan1_scaled"); ("chan2_scaled", "chan2_scaled"); ("chan3_scaled", "chan3_scaled"); ("chan4_scaled", "chan4_scaled"); ("chan5_scaled", "chan5_scaled"); ("chan6_scaled", "chan6_scaled"); ("chan7_scaled", "chan7_scaled"); ("chan8_scaled", "chan8_scaled"); ("rssi", "rssi")]
    [("time_boot_ms", None); ("chan1_scaled", None); ("chan2_scaled", None); ("chan3_scaled", None); ("chan4_scaled", None); ("chan5_scaled", None); ("chan6_scaled", None); ("chan7_scaled", None); ("chan8_scaled", None); ("port", None); ("rssi", None)];
  (* lines 3119-3162 *)
  Ctor "MAVLink_rc_channels_raw_message"
    ["time_boot_ms"; "port"; "chan1_raw"; "chan2_raw"; "chan3_raw"; "chan4_raw"; "chan5_raw"; "chan6_raw"; "chan7_raw"; "chan8_raw"; "rssi"]
    [("time_boot_ms", "time_boot_ms"); ("port", "port"); ("chan1_raw", "chan1_raw"); ("chan2_raw", "chan2_raw"); ("chan3_raw", "chan3_raw"); ("chan4_raw", "chan4_raw"); ("chan5_raw", "chan5_raw"); ("chan6_raw", "chan6_raw"); ("chan7_raw", "chan7_raw"); ("chan8_raw", "chan8_raw"); ("rssi", "rssi")]
    [("time_boot_ms", None); ("chan1_raw", None); ("chan2_raw", None); ("chan3_raw", None); ("chan4_raw", None); ("chan5_raw", None); ("chan6_raw", None); ("chan7_raw", None); ("chan8_raw", None); ("port", None); ("rssi", None)];
  (* lines 3164-3206 *)
  Ctor "MAVLink_servo_output_raw_message"
    ["time_usec"; "port"; "servo1_raw"; "servo2_raw"; "servo3_raw"; "servo4_raw"; "servo5_raw"; "servo6_raw"; "servo7_raw"; "servo8_raw"]
    [("time_usec", "time_usec"); ("port", "port"); ("servo1_raw", "servo1_raw"); ("servo2_raw", "servo2_raw"); ("servo3_raw", "servo3_raw"); ("servo4_raw", "servo4_raw"); ("servo5_raw", "servo5_raw"); ("servo6_raw", "servo6_raw"); ("servo7_raw", "servo7_raw"); ("servo8_raw", "servo8_raw")]
    [("time_usec", None); ("servo1_raw", None); ("servo2_raw", None); ("servo3_raw", None); ("servo4_raw", None); ("servo5_raw", None); ("servo6_raw", None); ("servo7_raw", None); ("servo8_raw", None); ("port", None)];
  (* lines 3208-3244 *)
  Ctor "MAVLink_mission_request_partial_list_message"
    ["target_system"; "target_component"; "start_index"; "end_index"]
    [("target_system", "target_system"); ("target_component", "target_component"); ("start_index", "start_index"); ("end_index", "end_index")]
    [("start_index", None); ("end_index", None); ("target_system", None); ("target_component", None)];
  (* lines 3246-3282 *)
  Ctor "MAVLink_mission_write_partial_list_message"
    ["target_system"; "target_component"; "start_index"; "end_index"]
    [("target_system", "target_system"); ("target_component", "target_component"); ("start_index", "start_index"); ("end_index", "end_index")]
    [("start_index", None); ("end_index", None); ("target_system", None); ("target_component", None)];
  (* lines 3284-3333 *)
  Ctor "MAVLink_mission_item_message"
    ["target_system"; "target_component"; "seq"; "frame"; "command"; "current"; "autocontinue"; "param1"; "param2"; "param3"; "param4"; "x"; "y"; "z"]
    [("target_system", "target_system"); ("target_component", "target_component"); ("seq", "seq"); ("frame", "frame"); ("command", "command"); ("current", "current"); ("autocontinue", "autocontinue"); ("param1", "param1"); ("param2", "param2"); ("param3", "param3"); ("param4", "param4"); ("x", "x"); ("y", "y"); ("z", "z")]
    [("param1", None); ("param2", None); ("param3", None); ("param4", None); ("x", None); ("y", None); ("z", None); ("seq", None); ("command", None); ("target_system", None); ("target_component", None); ("frame", None); ("current", None); ("autocontinue", None)];
  (* lines 3335-3370 *)
  Ctor "MAVLink_mission_request_message"
    ["target_system"; "target_component"; "seq"]
    [("target_system", "target_system"); ("target_component", "target_component"); ("seq", "seq")]
    [("seq", None); ("target_system", None); ("target_component", None)];
  (* lines 3372-3407 *)
  Ctor "MAVLink_mission_set_current_message"
    ["target_system"; "target_component"; "seq"]
    [("target_system", "target_system"); ("target_component", "target_component"); ("seq", "seq")]
    [("seq", None); ("target_system", None); ("target_component", None)];
  (* lines 3409-3441 *)
  Ctor "MAVLink_mission_current_message"
    ["seq"]
    [("seq", "seq")]
    [("seq", None)];
  (* lines 3443-3475 *)
  Ctor "MAVLink_mission_request_list_message"
    ["target_system"; "target_component"]
    [("target_system", "target_system"); ("target_component", "target_component")]
    [("target_system", None); ("target_component", None)];
  (* lines 3477-3512 *)
  Ctor "MAVLink_mission_count_message"
    ["target_system"; "target_component"; "count"]
    [("target_system", "target_system"); ("target_component", "target_component"); ("count", "count")]
    [("count", None); ("target_system", None); ("target_component", None)];
  (* lines 3514-3545 *)
  Ctor "MAVLink_mission_clear_all_message"
    ["target_system"; "target_component"]
    [("target_system", "target_system"); ("target_component", "target_component")]
    [("target_system", None); ("target_component", None)];
  (* lines 3547-3579 *)
  Ctor "MAVLink_mission_item_reached_message"
    ["seq"]
    [("seq", "seq")]
    [("seq", None)];
  (* lines 3581-3615 *)
  Ctor "MAVLink_mission_ack_message"
    ["target_system"; "target_component"; "type"]
    [("target_system", "target_system"); ("target_component", "target_component"); ("type", "type")]
    [("target_system", None); ("target_component", None); ("type", None)];
  (* lines 3617-3654 *)
  Ctor "MAVLink_set_gps_global_origin_message"
    ["target_system"; "latitude"; "longitude"; "altitude"]
    [("target_system", "target_system"); ("latitude", "latitude"); ("longitude", "longitude"); ("altitude", "altitude")]
    [("latitude", None); ("longitude", None); ("altitude", None); ("target_system", None)];
  (* lines 3656-3689 *)
  Ctor "MAVLink_gps_global_origin_message"
    ["latitude"; "longitude"; "altitude"]
    [("latitude", "latitude"); ("longitude", "longitude"); ("altitude", "altitude")]
    [("latitude", None); ("longitude", None); ("altitude", None)];
  (* lines 3691-3730 *)
  Ctor "MAVLink_param_map_rc_message"
    ["target_system"; "target_component"; "param_id"; "param_index"; "parameter_rc_channel_index"; "param_value0"; "scale"; "param_value_min"; "param_value_max"]
    [("target_system", "target_system"); ("target_component", "target_component"); ("param_id", "param_id"); ("param_index", "param_index"); ("parameter_rc_channel_index", "parameter_rc_channel_index"); ("param_value0", "param_value0"); ("scale", "scale"); ("param_value_min", "param_value_min"); ("param_value_max", "param_value_max")]
    [("param_value0", None); ("scale", None); ("param_value_min", None); ("param_value_max", None); ("param_index", None); ("target_system", None); ("target_component", None); ("param_id", None); ("parameter_rc_channel_index", None)];
  (* lines 3732-3773 *)
  Ctor "MAVLink_safety_set_allowed_area_message"
    ["target_system"; "target_component"; "frame"; "p1x"; "p1y"; "p1z"; "p2x"; "p2y"; "p2z"]
    [("target_system", "target_system"); ("target_component", "target_component"); ("frame", "frame"); ("p1x", "p1x"); ("p1y", "p1y"); ("p1z", "p1z"); ("p2x", "p2x"); ("p2y", "p2y"); ("p2z", "p2z")]
    [("p1x", None); ("p1y", None); ("p1z", None); ("p2x", None); ("p2y", None); ("p2z", None); ("target_system", None); ("target_component", None); ("frame", None)];
  (* lines 3775-3811 *)
  Ctor "MAVLink_safety_allowed_area_message"
    ["frame"; "p1x"; "p1y"; "p1z"; "p2x"; "p2y"; "p2z"]
    [("frame", "frame"); ("p1x", "p1x"); ("p1y", "p1y"); ("p1z", "p1z"); ("p2x", "p2x"); ("p2y", "p2y"); ("p2z", "p2z")]
    [("p1x", None); ("p1y", None); ("p1z", None); ("p2x", None); ("p2y", None); ("p2z", None); ("frame", None)];
  (* lines 3813-3851 *)
  Ctor "MAVLink_attitude_quaternion_cov_message"
    ["time_boot_ms"; "q"; "rollspeed"; "pitchspeed"; "yawspeed"; "covariance"]
    [("time_boot_ms", "time_boot_ms"); ("q", "q"); ("rollspeed", "rollspeed"); ("pitchspeed", "pitchspeed"); ("yawspeed", "yawspeed"); ("covariance", "covariance")]
    [("time_boot_ms", None); ("q", Some 0); ("q", Some 1); ("q", Some 2); ("q", Some 3); ("rollspeed", None); ("pitchspeed", None); ("yawspeed", None); ("covariance", Some 0); ("covariance", Some 1); ("covariance", Some 2); ("covariance", Some 3); ("covariance", Some 4); ("covariance", Some 5); ("covariance", Some 6); ("covariance", Some 7); ("covariance", Some 8)];
  (* lines 3853-3893 *)
  Ctor "MAVLink_nav_controller_output_message"
    ["nav_roll"; "nav_pitch"; "nav_bearing"; "target_bearing"; "wp_dist"; "alt_error"; "aspd_error"; "xtrack_error"]
    [("nav_roll", "nav_roll"); ("nav_pitch", "nav_pitch"); ("nav_bearing", "nav_bearing"); ("target_bearing", "target_bearing"); ("wp_dist", "wp_dist"); ("alt_error", "alt_error"); ("aspd_error", "aspd_error"); ("xtrack_error", "xtrack_error")]
    [("nav_roll", None); ("nav_pitch", None); ("alt_error", None); ("aspd_error", None); ("xtrack_error", None); ("nav_bearing", None); ("target_bearing", None); ("wp_dist", None)];
  (* lines 3895-3942 *)
  Ctor "MAVLink_global_position_int_cov_message"
    ["time_boot_ms"; "time_utc"; "estimator_type"; "lat"; "lon"; "alt"; "relative_alt"; "vx"; "vy"; "vz"; "covariance"]
    [("time_boot_ms", "time_boot_ms"); ("time_utc", "time_utc"); ("estimator_type", "estimator_type"); ("lat", "lat"); ("lon", "lon"); ("alt", "alt"); ("relative_alt", "relative_alt"); ("vx", "vx"); ("vy", "vy"); ("vz", "vz"); ("covariance", "covariance")]
    [("time_utc", None); ("time_boot_ms", None); ("lat", None); ("lon", None); ("alt", None); ("relative_alt", None); ("vx", None); ("vy", None); ("vz", None); ("covariance", Some 0); ("covariance", Some 1); ("covariance", Some 2); ("covariance", Some 3); ("covariance", Some 4); ("covariance", Some 5); ("covariance", Some 6); ("covariance", Some 7); ("covariance", Some 8); ("covariance", Some 9); ("covariance", Some 10); ("covariance", Some 11); ("covariance", Some 12); ("covariance", Some 13); ("covariance", Some 14); ("covariance", Some 15); ("covariance", Some 16); ("covariance", Some 17); ("covariance", Some 18); ("covariance", Some 19); ("covariance", Some 20); ("covariance", Some 21); ("covariance", Some 22); ("covariance", Some 23); ("covariance", Some 24); ("covariance", Some 25); ("covariance", Some 26); ("covariance", Some 27); ("covariance", Some 28); ("covariance", Some 29); ("covariance", Some 30); ("covariance", Some 31); ("covariance", Some 32); ("covariance", Some 33); ("covariance", Some 34); ("covariance", Some 35); ("estimator_type", None)];
  (* lines 3944-3988 *)
  Ctor "MAVLink_local_position_ned_cov_message"
    ["time_boot_ms"; "time_utc"; "estimator_type"; "x"; "y"; "z"; "vx"; "vy"; "vz"; "ax"; "ay"; "az"; "covariance"]
    [("time_boot_ms", "time_boot_ms"); ("time_utc", "time_utc"); ("estimator_type", "estimator_type"); ("x", "x"); ("y", "y"); ("z", "z"); ("vx", "vx"); ("vy", "vy"); ("vz", "vz"); ("ax", "ax"); ("ay", "ay"); ("az", "az"); ("covariance", "covariance")]
    [("time_utc", None); ("time_boot_ms", None); ("x", None); ("y", None); ("z", None); ("vx", None); ("vy", None); ("vz", None); ("ax", None); ("ay", None); ("az", None); ("covariance", Some 0); ("covariance", Some 1); ("covariance", Some 2); ("covariance", Some 3); ("covariance", Some 4); ("covariance", Some 5); ("covariance", Some 6); ("covariance", Some 7); ("covariance", Some 8); ("covariance", Some 9); ("covariance", Some 10); ("covariance", Some 11); ("covariance", Some 12); ("covariance", Some 13); ("covariance", Some 14); ("covariance", Some 15); ("covariance", Some 16); ("covariance", Some 17); ("covariance", Some 18); ("covariance", Some 19); ("covariance", Some 20); ("covariance", Some 21); ("covariance", Some 22); ("covariance", Some 23); ("covariance", Some 24); ("covariance", Some 25); ("covariance", Some 26); ("covariance", Some 27); ("covariance", Some 28); ("covariance", Some 29); ("covariance", Some 30); ("covariance", Some 31); ("covariance", Some 32); ("covariance", Some 33); ("covariance", Some 34); ("covariance", Some 35); ("covariance", Some 36); ("covariance", Some 37); ("covariance", Some 38); ("covariance", Some 39); ("covariance", Some 40); ("covariance", Some 41); ("covariance", Some 42); ("covariance", Some 43); ("covariance", Some 44); ("estimator_type", None)];
  (* lines 3990-4043 *)
  Ctor "MAVLink_rc_channels_message"
    ["time_boot_ms"; "chancount"; "chan1_raw"; "chan2_raw"; "chan3_raw"; "chan4_raw"; "chan5_raw"; "chan6_raw"; "chan7_raw"; "chan8_raw"; "chan9_raw"; "chan10_raw"; "chan11_raw"; "chan12_raw"; "chan13_raw"; "chan14_raw"; "chan15_raw"; "chan16_raw"; "chan17_raw"; "chan18_raw"; "rssi"]
    [("time_boot_ms", "time_boot_ms"); ("chancount", "chancount"); ("chan1_raw", "chan1_raw"); ("chan2_raw", "chan2_raw"); ("chan3_raw", "chan3_raw"); ("chan4_raw", "chan4_raw"); ("chan5_raw", "chan5_raw"); ("chan6_raw", "chan6_raw"); ("chan7_raw", "chan7_raw"); ("chan8_raw", "chan8_raw"); ("chan9_raw", "chan9_raw"); ("chan10_raw", "chan10_raw"); ("chan11_raw", "chan11_raw"); ("chan12_raw", "chan12_raw"); ("chan13_raw", "chan13_raw"); ("chan14_raw", "chan14_raw"); ("chan15_raw", "chan15_raw"); ("chan16_raw", "chan16_raw"); ("chan17_raw", "chan17_raw"); ("chan18_raw", "chan18_raw"); ("rssi", "rssi")]
    [("time_boot_ms", None); ("chan1_raw", None); ("chan2_raw", None); ("chan3_raw", None); ("chan4_raw", None); ("chan5_raw", None); ("chan6_raw", None); ("chan7_raw", None); ("chan8_raw", None); ("chan9_raw", None); ("chan10_raw", None); ("chan11_raw", None); ("chan12_raw", None); ("chan13_raw", None); ("chan14_raw", None); ("chan15_raw", None); ("chan16_raw", None); ("chan17_raw", None); ("chan18_raw", None); ("chancount", None); ("rssi", None)];
  (* lines 4045-4080 *)
  Ctor "MAVLink_request_data_stream_message"
    ["target_system"; "target_component"; "req_stream_id"; "req_message_rate"; "start_stop"]
    [("target_system", "target_system"); ("target_component", "target_component"); ("req_stream_id", "req_stream_id"); ("req_message_rate", "req_message_rate"); ("start_stop", "start_stop")]
    [("req_message_rate", None); ("target_system", None); ("target_component", None); ("req_stream_id", None); ("start_stop", None)];
  (* lines 4082-4114 *)
  Ctor "MAVLink_data_stream_message"
    ["stream_id"; "message_rate"; "on_off"]
    [("stream_id", "stream_id"); ("message_rate", "message_rate"); ("on_off", "on_off")]
    [("message_rate", None); ("stream_id", None); ("on_off", None)];
  (* lines 4116-4154 *)
  Ctor "MAVLink_manual_control_message"
    ["target"; "x"; "y"; "z"; "r"; "buttons"]
    [("target", "target"); ("x", "x"); ("y", "y"); ("z", "z"); ("r", "r"); ("buttons", "buttons")]
    [("x", None); ("y", None); ("z", None); ("r", None); ("buttons", None); ("target", None)];
  (* lines 4156-4201 *)
  Ctor "MAVLink_rc_channels_override_message"
    ["target_system"; "target_component"; "chan1_raw"; "chan2_raw"; "chan3_raw"; "chan4_raw"; "chan5_raw"; "chan6_raw"; "chan7_raw"; "chan8_raw"]
    [("target_system", "target_system"); ("target_component", "target_component"); ("chan1_raw", "chan1_raw"); ("chan2_raw", "chan2_raw"); ("chan3_raw", "chan3_raw"); ("chan4_raw", "chan4_raw"); ("chan5_raw", "chan5_raw"); ("chan6_raw", "chan6_raw"); ("chan7_raw", "chan7_raw"); ("chan8_raw", "chan8_raw")]
    [("chan1_raw", None); ("chan2_raw", None); ("chan3_raw", None); ("chan4_raw", None); ("chan5_raw", None); ("chan6_raw", None); ("chan7_raw", None); ("chan8_raw", None); ("target_system", None); ("target_component", None)];
  (* lines 4203-4252 *)
  Ctor "MAVLink_mission_item_int_message"
    ["target_system"; "target_component"; "seq"; "frame"; "command"; "current"; "autocontinue"; "param1"; "param2"; "param3"; "param4"; "x"; "y"; "z"]
    [("target_system", "target_system"); ("target_component", "target_component"); ("seq", "seq"); ("frame", "frame"); ("command", "command"); ("current", "current"); ("autocontinue", "autocontinue"); ("param1", "param1"); ("param2", "param2"); ("param3", "param3"); ("param4", "param4"); ("x", "x"); ("y", "y"); ("z", "z")]
    [("param1", None); ("param2", None); ("param3", None); ("param4", None); ("x", None); ("y", None); ("z", None); ("seq", None); ("command", None); ("target_system", None); ("target_component", None); ("frame", None); ("current", None); ("autocontinue", None)];
  (* lines 4254-4289 *)
  Ctor "MAVLink_vfr_hud_message"
    ["airspeed"; "groundspeed"; "heading"; "throttle"; "alt"; "climb"]
    [("airspeed", "airspeed"); ("groundspeed", "groundspeed"); ("heading", "heading"); ("throttle", "throttle"); ("alt", "alt"); ("climb", "climb")]
    [("airspeed", None); ("groundspeed", None); ("alt", None); ("climb", None); ("heading", None); ("throttle", None)];
  (* lines 4291-4334 *)
  Ctor "MAVLink_command_int_message"
    ["target_system"; "target_component"; "frame"; "command"; "current"; "autocontinue"; "param1"; "param2"; "param3"; "param4"; "x"; "y"; "z"]
    [("target_system", "target_system"); ("target_component", "target_component"); ("frame", "frame"); ("command", "command"); ("current", "current"); ("autocontinue", "autocontinue"); ("param1", "param1"); ("param2", "param2"); ("param3", "param3"); ("param4", "param4"); ("x", "x"); ("y", "y"); ("z", "z")]
    [("param1", None); ("param2", None); ("param3", None); ("param4", None); ("x", None); ("y", None); ("z", None); ("command", None); ("target_system", None); ("target_component", None); ("frame", None); ("current", None); ("autocontinue", None)];
  (* lines 4336-4376 *)
  Ctor "MAVLink_command_long_message"
    ["target_system"; "target_component"; "command"; "confirmation"; "param1"; "param2"; "param3"; "param4"; "param5"; "param6"; "param7"]
    [("target_system", "target_system"); ("target_component", "target_component"); ("command", "command"); ("confirmation", "confirmation"); ("param1", "param1"); ("param2", "param2"); ("param3", "param3"); ("param4", "param4"); ("param5", "param5"); ("param6", "param6"); ("param7", "param7")]
    [("param1", None); ("param2", None); ("param3", None); ("param4", None); ("param5", None); ("param6", None); ("param7", None); ("command", None); ("target_system", None); ("target_component", None); ("confirmation", None)];
  (* lines 4378-4410 *)
  Ctor "MAVLink_command_ack_message"
    ["command"; "result"]
    [("command", "command"); ("result", "result")]
    [("command", None); ("result", None)];
  (* lines 4412-4448 *)
  Ctor "MAVLink_manual_setpoint_message"
    ["time_boot_ms"; "roll"; "pitch"; "yaw"; "thrust"; "mode_switch"; "manual_override_switch"]
    [("time_boot_ms", "time_boot_ms"); ("roll", "roll"); ("pitch", "pitch"); ("yaw", "yaw"); ("thrust", "thrust"); ("mode_switch", "mode_switch"); ("manual_override_switch", "manual_override_switch")]
    [("time_boot_ms", None); ("roll", None); ("pitch", None); ("yaw", None); ("thrust", None); ("mode_switch", None); ("manual_override_switch", None)];
  (* lines 4450-4488 *)
  Ctor "MAVLink_set_attitude_target_message"
    ["time_boot_ms"; "target_system"; "target_component"; "type_mask"; "q"; "body_roll_rate"; "body_pitch_rate"; "body_yaw_rate"; "thrust"]
    [("time_boot_ms", "time_boot_ms"); ("target_system", "target_system"); ("target_component", "target_component"); ("type_mask", "type_mask"); ("q", "q"); ("body_roll_rate", "body_roll_rate"); ("body_pitch_rate", "body_pitch_rate"); ("body_yaw_rate", "body_yaw_rate"); ("thrust", "thrust")]
    [("time_boot_ms", None); ("q", Some 0); ("q", Some 1); ("q", Some 2); ("q", Some 3); ("body_roll_rate", None); ("body_pitch_rate", None); ("body_yaw_rate", None); ("thrust", None); ("target_system", None); ("target_component", None); ("type_mask", None)];
  (* lines 4490-4526 *)
  Ctor "MAVLink_attitude_target_message"
    ["time_boot_ms"; "type_mask"; "q"; "body_roll_rate"; "body_pitch_rate"; "body_yaw_rate"; "thrust"]
    [("time_boot_ms", "time_boot_ms"); ("type_mask", "type_mask"); ("q", "q"); ("body_roll_rate", "body_roll_rate"); ("body_pitch_rate", "body_pitch_rate"); ("body_yaw_rate", "body_yaw_rate"); ("thrust", "thrust")]
    [("time_boot_ms", None); ("q", Some 0); ("q", Some 1); ("q", Some 2); ("q", Some 3); ("body_roll_rate", None); ("body_pitch_rate", None); ("body_yaw_rate", None); ("thrust", None); ("type_mask", None)];
  (* lines 4528-4574 *)
  Ctor "MAVLink_set_position_target_local_ned_message"
    ["time_boot_ms"; "target_system"; "target_component"; "coordinate_frame"; "type_mask"; "x"; "y"; "z"; "vx"; "vy"; "vz"; "afx"; "afy"; "afz"; "yaw"; "yaw_rate"]
    [("time_boot_ms", "time_boot_ms"); ("target_system", "target_system"); ("target_component", "target_component"); ("coordinate_frame", "coordinate_frame"); ("type_mask", "type_mask"); ("x", "x"); ("y", "y"); ("z", "z"); ("vx", "vx"); ("vy", "vy"); ("vz", "vz"); ("afx", "afx"); ("afy", "afy"); ("afz", "afz"); ("yaw", "yaw"); ("yaw_rate", "yaw_rate")]
    [("time_boot_ms", None); ("x", None); ("y", None); ("z", None); ("vx", None); ("vy", None); ("vz", None); ("afx", None); ("afy", None); ("afz", None); ("yaw", None); ("yaw_rate", None); ("type_mask", None); ("target_system", None); ("target_component", None); ("coordinate_frame", None)];
  (* lines 4576-4620 *)
  Ctor "MAVLink_position_target_local_ned_message"
    ["time_boot_ms"; "coordinate_frame"; "type_mask"; "x"; "y"; "z"; "vx"; "vy"; "vz"; "afx"; "afy"; "afz"; "yaw"; "yaw_rate"]
    [("time_boot_ms", "time_boot_ms"); ("coordinate_frame", "coordinate_frame"); ("type_mask", "type_mask"); ("x", "x"); ("y", "y"); ("z", "z"); ("vx", "vx"); ("vy", "vy"); ("vz", "vz"); ("afx", "afx"); ("afy", "afy"); ("afz", "afz"); ("yaw", "yaw"); ("yaw_rate", "yaw_rate")]
    [("time_boot_ms", None); ("x", None); ("y", None); ("z", None); ("vx", None); ("vy", None); ("vz", None); ("afx", None); ("afy", None); ("afz", None); ("yaw", None); ("yaw_rate", None); ("type_mask", None); ("coordinate_frame", None)];
  (* lines 4622-4668 *)
  Ctor "MAVLink_set_position_target_global_int_message"
    ["time_boot_ms"; "target_system"; "target_component"; "coordinate_frame"; "type_mask"; "lat_int"; "lon_int"; "alt"; "vx"; "vy"; "vz"; "afx"; "afy"; "afz"; "yaw"; "yaw_rate"]
    [("time_boot_ms", "time_boot_ms"); ("target_system", "target_system"); ("target_component", "target_component"); ("coordinate_frame", "coordinate_frame"); ("type_mask", "type_mask"); ("lat_int", "lat_int"); ("lon_int", "lon_int"); ("alt", "alt"); ("vx", "vx"); ("vy", "vy"); ("vz", "vz"); ("afx", "afx"); ("afy", "afy"); ("afz", "afz"); ("yaw", "yaw"); ("yaw_rate", "yaw_rate")]
    [("time_boot_ms", None); ("lat_int", None); ("lon_int", None); ("alt", None); ("vx", None); ("vy", None); ("vz", None); ("afx", None); ("afy", None); ("afz", None); ("yaw", None); ("yaw_rate", None); ("type_mask", None); ("target_system", None); ("target_component", None); ("coordinate_frame", None)];
  (* lines 4670-4714 *)
  Ctor "MAVLink_position_target_global_int_message"
    ["time_boot_ms"; "coordinate_frame"; "type_mask"; "lat_int"; "lon_int"; "alt"; "vx"; "vy"; "vz"; "afx"; "afy"; "afz"; "yaw"; "yaw_rate"]
    [("time_boot_ms", "time_boot_ms"); ("coordinate_frame", "coordinate_frame"); ("type_mask", "type_mask"); ("lat_int", "lat_int"); ("lon_int", "lon_int"); ("alt", "alt"); ("vx", "vx"); ("vy", "vy"); ("vz", "vz"); ("afx", "afx"); ("afy", "afy"); ("afz", "afz"); ("yaw", "yaw"); ("yaw_rate", "yaw_rate")]
    [("time_boot_ms", None); ("lat_int", None); ("lon_int", None); ("alt", None); ("vx", None); ("vy", None); ("vz", None); ("afx", None); ("afy", None); ("afz", None); ("yaw", None); ("yaw_rate", None); ("type_mask", None); ("coordinate_frame", None)];
  (* lines 4716-4755 *)
  Ctor "MAVLink_local_position_ned_system_global_offset_message"
    ["time_boot_ms"; "x"; "y"; "z"; "roll"; "pitch"; "yaw"]
    [("time_boot_ms", "time_boot_ms"); ("x", "x"); ("y", "y"); ("z", "z"); ("roll", "roll"); ("pitch", "pitch"); ("yaw", "yaw")]
    [("time_boot_ms", None); ("x", None); ("y", None); ("z", None); ("roll", None); ("pitch", None); ("yaw", None)];
  (* lines 4757-4806 *)
  Ctor "MAVLink_hil_state_message"
    ["time_usec"; "roll"; "pitch"; "yaw"; "rollspeed"; "pitchspeed"; "yawspeed"; "lat"; "lon"; "alt"; "vx"; "vy"; "vz"; "xacc"; "yacc"; "zacc"]
    [("time_usec", "time_usec"); ("roll", "roll"); ("pitch", "pitch"); ("yaw", "yaw"); ("rollspeed", "rollspeed"); ("pitchspeed", "pitchspeed"); ("yawspeed", "yawspeed"); ("lat", "lat"); ("lon", "lon"); ("alt", "alt"); ("vx", "vx"); ("vy", "vy"); ("vz", "vz"); ("xacc", "xacc"); ("yacc", "yacc"); ("zacc", "zacc")]
    [("time_usec", None); ("roll", None); ("pitch", None); ("yaw", None); ("rollspeed", None); ("pitchspeed", None); ("yawspeed", None); ("lat", None); ("lon", None); ("alt", None); ("vx", None); ("vy", None); ("vz", None); ("xacc", None); ("yacc", None); ("zacc", None)];
  (* lines 4808-4849 *)
  Ctor "MAVLink_hil_controls_message"
    ["time_usec"; "roll_ailerons"; "pitch_elevator"; "yaw_rudder"; "throttle"; "aux1"; "aux2"; "aux3"; "aux4"; "mode"; "nav_mode"]
    [("time_usec", "time_usec"); ("roll_ailerons", "roll_ailerons"); ("pitch_elevator", "pitch_elevator"); ("yaw_rudder", "yaw_rudder"); ("throttle", "throttle"); ("aux1", "aux1"); ("aux2", "aux2"); ("aux3", "aux3"); ("aux4", "aux4"); ("mode", "mode"); ("nav_mode", "nav_mode")]
    [("time_usec", None); ("roll_ailerons", None); ("pitch_elevator", None); ("yaw_rudder", None); ("throttle", None); ("aux1", None); ("aux2", None); ("aux3", None); ("aux4", None); ("mode", None); ("nav_mode", None)];
  (* lines 4851-4897 *)
  Ctor "MAVLink_hil_rc_inputs_raw_message"
    ["time_usec"; "chan1_raw"; "chan2_raw"; "chan3_raw"; "chan4_raw"; "chan5_raw"; "chan6_raw"; "chan7_raw"; "chan8_raw"; "chan9_raw"; "chan10_raw"; "chan11_raw"; "chan12_raw"; "rssi"]
    [("time_usec", "time_usec"); ("chan1_raw", "chan1_raw"); ("chan2_raw", "chan2_raw"); ("chan3_raw", "chan3_raw"); ("chan4_raw", "chan4_raw"); ("chan5_raw", "chan5_raw"); ("chan6_raw", "chan6_raw"); ("chan7_raw", "chan7_raw"); ("chan8_raw", "chan8_raw"); ("chan9_raw", "chan9_raw"); ("chan10_raw", "chan10_raw"); ("chan11_raw", "chan11_raw"); ("chan12_raw", "chan12_raw"); ("rssi", "rssi")]
    [("time_usec", None); ("chan1_raw", None); ("chan2_raw", None); ("chan3_raw", None); ("chan4_raw", None); ("chan5_raw", None); ("chan6_raw", None); ("chan7_raw", None); ("chan8_raw", None); ("chan9_raw", None); ("chan10_raw", None); ("chan11_raw", None); ("chan12_raw", None); ("rssi", None)];
  (* lines 4899-4936 *)
  Ctor "MAVLink_optical_flow_message"
    ["time_usec"; "sensor_id"; "flow_x"; "flow_y"; "flow_comp_m_x"; "flow_comp_m_y"; "quality"; "ground_distance"]
    [("time_usec", "time_usec"); ("sensor_id", "sensor_id"); ("flow_x", "flow_x"); ("flow_y", "flow_y"); ("flow_comp_m_x", "flow_comp_m_x"); ("flow_comp_m_y", "flow_comp_m_y"); ("quality", "quality"); ("ground_distance", "ground_distance")]
    [("time_usec", None); ("flow_comp_m_x", None); ("flow_comp_m_y", None); ("ground_distance", None); ("flow_x", None); ("flow_y", None); ("sensor_id", None); ("quality", None)];
  (* lines 4938-4974 *)
  Ctor "MAVLink_global_vision_position_estimate_message"
    ["usec"; "x"; "y"; "z"; "roll"; "pitch"; "yaw"]
    [("usec", "usec"); ("x", "x"); ("y", "y"); ("z", "z"); ("roll", "roll"); ("pitch", "pitch"); ("yaw", "yaw")]
    [("usec", None); ("x", None); ("y", None); ("z", None); ("roll", None); ("pitch", None); ("yaw", None)];
  (* lines 4976-5012 *)
  Ctor "MAVLink_vision_position_estimate_message"
    ["usec"; "x"; "y"; "z"; "roll"; "pitch"; "yaw"]
    [("usec", "usec"); ("x", "x"); ("y", "y"); ("z", "z"); ("roll", "roll"); ("pitch", "pitch"); ("yaw", "yaw")]
    [("usec", None); ("x", None); ("y", None); ("z", None); ("roll", None); ("pitch", None); ("yaw", None)];
  (* lines 5014-5047 *)
  Ctor "MAVLink_vision_speed_estimate_message"
    ["usec"; "x"; "y"; "z"]
    [("usec", "usec"); ("x", "x"); ("y", "y"); ("z", "z")]
    [("usec", None); ("x", None); ("y", None); ("z", None)];
  (* lines 5049-5085 *)
  Ctor "MAVLink_vicon_position_estimate_message"
    ["usec"; "x"; "y"; "z"; "roll"; "pitch"; "yaw"]
    [("usec", "usec"); ("x", "x"); ("y", "y"); ("z", "z"); ("roll", "roll"); ("pitch", "pitch"); ("yaw", "yaw")]
    [("usec", None); ("x", None); ("y", None); ("z", None); ("roll", None); ("pitch", None); ("yaw", None)];
  (* lines 5087-5131 *)
  Ctor "MAVLink_highres_imu_message"
    ["time_usec"; "xacc"; "yacc"; "zacc"; "xgyro"; "ygyro"; "zgyro"; "xmag"; "ymag"; "zmag"; "abs_pressure"; "diff_pressure"; "pressure_alt"; "temperature"; "fields_updated"]
    [("time_usec", "time_usec"); ("xacc", "xacc"); ("yacc", "yacc"); ("zacc", "zacc"); ("xgyro", "xgyro"); ("ygyro", "ygyro"); ("zgyro", "zgyro"); ("xmag", "xmag"); ("ymag", "ymag"); ("zmag", "zmag"); ("abs_pressure", "abs_pressure"); ("diff_pressure", "diff_pressure"); ("pressure_alt", "pressure_alt"); ("temperature", "temperature"); ("fields_updated", "fields_updated")]
    [("time_usec", None); ("xacc", None); ("yacc", None); ("zacc", None); ("xgyro", None); ("ygyro", None); ("zgyro", None); ("xmag", None); ("ymag", None); ("zmag", None); ("abs_pressure", None); ("diff_pressure", None); ("pressure_alt", None); ("temperature", None); ("fields_updated", None)];
  (* lines 5133-5175 *)
  Ctor "MAVLink_optical_flow_rad_message"
    ["time_usec"; "sensor_id"; "integration_time_us"; "integrated_x"; "integrated_y"; "integrated_xgyro"; "integrated_ygyro"; "integrated_zgyro"; "temperature"; "quality"; "time_delta_distance_us"; "distance"]
    [("time_usec", "time_usec"); ("sensor_id", "sensor_id"); ("integration_time_us", "integration_time_us"); ("integrated_x", "integrated_x"); ("integrated_y", "integrated_y"); ("integrated_xgyro", "integrated_xgyro"); ("integrated_ygyro", "integrated_ygyro"); ("integrated_zgyro", "integrated_zgyro"); ("temperature", "temperature"); ("quality", "quality"); ("time_delta_distance_us", "time_delta_distance_us"); ("distance", "distance")]
    [("time_usec", None); ("integration_time_us", None); ("integrated_x", None); ("integrated_y", None); ("integrated_xgyro", None); ("integrated_ygyro", None); ("integrated_zgyro", None); ("time_delta_distance_us", None); ("distance", None); ("temperature", None); ("sensor_id", None); ("quality", None)];
  (* lines 5177-5221 *)
  Ctor "MAVLink_hil_sensor_message"
    ["time_usec"; "xacc"; "yacc"; "zacc"; "xgyro"; "ygyro"; "zgyro"; "xmag"; "ymag"; "zmag"; "abs_pressure"; "diff_pressure"; "pressure_alt"; "temperature"; "fields_updated"]
    [("time_usec", "time_usec"); ("xacc", "xacc"); ("yacc", "yacc"); ("zacc", "zacc"); ("xgyro", "xgyro"); ("ygyro", "ygyro"); ("zgyro", "zgyro"); ("xmag", "xmag"); ("ymag", "ymag"); ("zmag", "zmag"); ("abs_pressure", "abs_pressure"); ("diff_pressure", "diff_pressure"); ("pressure_alt", "pressure_alt"); ("temperature", "temperature"); ("fields_updated", "fields_updated")]
    [("time_usec", None); ("xacc", None); ("yacc", None); ("zacc", None); ("xgyro", None); ("ygyro", None); ("zgyro", None); ("xmag", None); ("ymag", None); ("zmag", None); ("abs_pressure", None); ("diff_pressure", None); ("pressure_alt", None); ("temperature", None); ("fields_updated", None)];
  (* lines 5223-5273 *)
  Ctor "MAVLink_sim_state_message"
    ["q1"; "q2"; "q3"; "q4"; "roll"; "pitch"; "yaw"; "xacc"; "yacc"; "zacc"; "xgyro"; "ygyro"; "zgyro"; "lat"; "lon"; "alt"; "std_dev_horz"; "std_dev_vert"; "vn"; "ve"; "vd"]
    [("q1", "q1"); ("q2", "q2"); ("q3", "q3"); ("q4", "q4"); ("roll", "roll"); ("pitch", "pitch"); ("yaw", "yaw"); ("xacc", "xacc"); ("yacc", "yacc"); ("zacc", "zacc"); ("xgyro", "xgyro"); ("ygyro", "ygyro"); ("zgyro", "zgyro"); ("lat", "lat"); ("lon", "lon"); ("alt", "alt"); ("std_dev_horz", "std_dev_horz"); ("std_dev_vert", "std_dev_vert"); ("vn", "vn"); ("ve", "ve"); ("vd", "vd")]
    [("q1", None); ("q2", None); ("q3", None); ("q4", None); ("roll", None); ("pitch", None); ("yaw", None); ("xacc", None); ("yacc", None); ("zacc", None); ("xgyro", None); ("ygyro", None); ("zgyro", None); ("lat", None); ("lon", None); ("alt", None); ("std_dev_horz", None); ("std_dev_vert", None); ("vn", None); ("ve", None); ("vd", None)];
  (* lines 5275-5311 *)
  Ctor "MAVLink_radio_status_message"
    ["rssi"; "remrssi"; "txbuf"; "noise"; "remnoise"; "rxerrors"; "fixed"]
    [("rssi", "rssi"); ("remrssi", "remrssi"); ("txbuf", "txbuf"); ("noise", "noise"); ("remnoise", "remnoise"); ("rxerrors", "rxerrors"); ("fixed", "fixed")]
    [("rxerrors", None); ("fixed", None); ("rssi", None); ("remrssi", None); ("txbuf", None); ("noise", None); ("remnoise", None)];
  (* lines 5313-5346 *)
  Ctor "MAVLink_file_transfer_protocol_message"
    ["target_network"; "target_system"; "target_component"; "payload"]
    [("target_network", "target_network"); ("target_system", "target_system"); ("target_component", "target_component"); ("payload", "payload")]
    [("target_network", None); ("target_system", None); ("target_component", None); ("payload", Some 0); ("payload", Some 1); ("payload", Some 2); ("payload", Some 3); ("payload", Some 4); ("payload", Some 5); ("payload", Some 6); ("payload", Some 7); ("payload", Some 8); ("payload", Some 9); ("payload", Some 10); ("payload", Some 11); ("payload", Some 12); ("payload", Some 13); ("payload", Some 14); ("payload", Some 15); ("payload", Some 16); ("payload", Some 17); ("payload", Some 18); ("payload", Some 19); ("payload", Some 20); ("payload", Some 21); ("payload", Some 22); ("payload", Some 23); ("payload", Some 24); ("payload", Some 25); ("payload", Some 26); ("payload", Some 27); ("payload", Some 28); ("payload", Some 29); ("payload", Some 30); ("payload", Some 31); ("payload", Some 32); ("payload", Some 33); ("payload", Some 34); ("payload", Some 35); ("payload", Some 36); ("payload", Some 37); ("payload", Some 38); ("payload", Some 39); ("payload", Some 40); ("payload", Some 41); ("payload", Some 42); ("payload", Some 43); ("payload", Some 44); ("payload", Some 45); ("payload", Some 46); ("payload", Some 47); ("payload", Some 48); ("payload", Some 49); ("payload", Some 50); ("payload", Some 51); ("payload", Some 52); ("payload", Some 53); ("payload", Some 54); ("payload", Some 55); ("payload", Some 56); ("payload", Some 57); ("payload", Some 58); ("payload", Some 59); ("payload", Some 60); ("payload", Some 61); ("payload", Some 62); ("payload", Some 63); ("payload", Some 64); ("payload", Some 65); ("payload", Some 66); ("payload", Some 67); ("payload", Some 68); ("payload", Some 69); ("payload", Some 70); ("payload", Some 71); ("payload", Some 72); ("payload", Some 73); ("payload", Some 74); ("payload", Some 75); ("payload", Some 76); ("payload", Some 77); ("payload", Some 78); ("payload", Some 79); ("payload", Some 80); ("payload", Some 81); ("payload", Some 82); ("payload", Some 83); ("payload", Some 84); ("payload", Some 85); ("payload", Some 86); ("payload", Some 87); ("payload", Some 88); ("payload", Some 89); ("payload", Some 90); ("payload", Some 91); ("payload", Some 92); ("payload", Some 93); ("payload", Some 94); ("payload", Some 95); ("payload", Some 96); ("payload", Some 97); ("payload", Some 98); ("payload", Some 99); ("payload", Some 100); ("payload", Some 101); ("payload", Some 102); ("payload", Some 103); ("payload", Some 104); ("payload", Some 105); ("payload", Some 106); ("payload", Some 107); ("payload", Some 108); ("payload", Some 109); ("payload", Some 110); ("payload", Some 111); ("payload", Some 112); ("payload", Some 113); ("payload", Some 114); ("payload", Some 115); ("payload", Some 116); ("payload", Some 117); ("payload", Some 118); ("payload", Some 119); ("payload", Some 120); ("payload", Some 121); ("payload", Some 122); ("payload", Some 123); ("payload", Some 124); ("payload", Some 125); ("payload", Some 126); ("payload", Some 127); ("payload", Some 128); ("payload", Some 129); ("payload", Some 130); ("payload", Some 131); ("payload", Some 132); ("payload", Some 133); ("payload", Some 134); ("payload", Some 135); ("payload", Some 136); ("payload", Some 137); ("payload", Some 138); ("payload", Some 139); ("payload", Some 140); ("payload", Some 141); ("payload", Some 142); ("payload", Some 143); ("payload", Some 144); ("payload", Some 145); ("payload", Some 146); ("payload", Some 147); ("payload", Some 148); ("payload", Some 149); ("payload", Some 150); ("payload", Some 151); ("payload", Some 152); ("payload", Some 153); ("payload", Some 154); ("payload", Some 155); ("payload", Some 156); ("payload", Some 157); ("payload", Some 158); ("payload", Some 159); ("payload", Some 160); ("payload", Some 161); ("payload", Some 162); ("payload", Some 163); ("payload", Some 164); ("payload", Some 165); ("payload", Some 166); ("payload", Some 167); ("payload", Some 168); ("payload", Some 169); ("payload", Some 170); ("payload", Some 171); ("payload", Some 172); ("payload", Some 173); ("payload", Some 174); ("payload", Some 175); ("payload", Some 176); ("payload", Some 177); ("payload", Some 178); ("payload", Some 179); ("payload", Some 180); ("payload", Some 181); ("payload", Some 182); ("payload", Some 183); ("payload", Some 184); ("payload", Some 185); ("payload", Some 186); ("payload", Some 187); ("payload", Some 188); ("payload", Some 189); ("payload", Some 190); ("payload", Some 191); ("payload", Some 192); ("payload", Some 193); ("payload", Some 194); ("payload", Some 195); ("payload", Some 196); ("payload", Some 197); ("payload", Some 198); ("payload", Some 199); ("payload", Some 200); ("payload", Some 201); ("payload", Some 202); ("payload", Some 203); ("payload", Some 204); ("payload", Some 205); ("payload", Some 206); ("payload", Some 207); ("payload", Some 208); ("payload", Some 209); ("payload", Some 210); ("payload", Some 211); ("payload", Some 212); ("payload", Some 213); ("payload", Some 214); ("payload", Some 215); ("payload", Some 216); ("payload", Some 217); ("payload", Some 218); ("payload", Some 219); ("payload", Some 220); ("payload", Some 221); ("payload", Some 222); ("payload", Some 223); ("payload", Some 224); ("payload", Some 225); ("payload", Some 226); ("payload", Some 227); ("payload", Some 228); ("payload", Some 229); ("payload", Some 230); ("payload", Some 231); ("payload", Some 232); ("payload", Some 233); ("payload", Some 234); ("payload", Some 235); ("payload", Some 236); ("payload", Some 237); ("payload", Some 238); ("payload", Some 239); ("payload", Some 240); ("payload", Some 241); ("payload", Some 242); ("payload", Some 243); ("payload", Some 244); ("payload", Some 245); ("payload", Some 246); ("payload", Some 247); ("payload", Some 248); ("payload", Some 249); ("payload", Some 250)];
  (* lines 5348-5379 *)
  Ctor "MAVLink_timesync_message"
    ["tc1"; "ts1"]
    [("tc1", "tc1"); ("ts1", "ts1")]
    [("tc1", None); ("ts1", None)];
  (* lines 5381-5412 *)
  Ctor "MAVLink_camera_trigger_message"
    ["time_usec"; "seq"]
    [("time_usec", "time_usec"); ("seq", "seq")]
    [("time_usec", None); ("seq", None)];
  (* lines 5414-5460 *)
  Ctor "MAVLink_hil_gps_message"
    ["time_usec"; "fix_type"; "lat"; "lon"; "alt"; "eph"; "epv"; "vel"; "vn"; "ve"; "vd"; "cog"; "satellites_visible"]
    [("time_usec", "time_usec"); ("fix_type", "fix_type"); ("lat", "lat"); ("lon", "lon"); ("alt", "alt"); ("eph", "eph"); ("epv", "epv"); ("vel", "vel"); ("vn", "vn"); ("ve", "ve"); ("vd", "vd"); ("cog", "cog"); ("satellites_visible", "satellites_visible")]
    [("time_usec", None); ("lat", None); ("lon", None); ("alt", None); ("eph", None); ("epv", None); ("vel", None); ("vn", None); ("ve", None); ("vd", None); ("cog", None); ("fix_type", None); ("satellites_visible", None)];
  (* lines 5462-5504 *)
  Ctor "MAVLink_hil_optical_flow_message"
    ["time_usec"; "sensor_id"; "integration_time_us"; "integrated_x"; "integrated_y"; "integrated_xgyro"; "integrated_ygyro"; "integrated_zgyro"; "temperature"; "quality"; "time_delta_distance_us"; "distance"]
    [("time_usec", "time_usec"); ("sensor_id", "sensor_id"); ("integration_time_us", "integration_time_us"); ("integrated_x", "integrated_x"); ("integrated_y", "integrated_y"); ("integrated_xgyro", "integrated_xgyro"); ("integrated_ygyro", "integrated_ygyro"); ("integrated_zgyro", "integrated_zgyro"); ("temperature", "temperature"); ("quality", "quality"); ("time_delta_distance_us", "time_delta_distance_us"); ("distance", "distance")]
    [("time_usec", None); ("integration_time_us", None); ("integrated_x", None); ("integrated_y", None); ("integrated_xgyro", None); ("integrated_ygyro", None); ("integrated_zgyro", None); ("time_delta_distance_us", None); ("distance", None); ("temperature", None); ("sensor_id", None); ("quality", None)];
  (* lines 5506-5554 *)
  Ctor "MAVLink_hil_state_quaternion_message"
    ["time_usec"; "attitude_quaternion"; "rollspeed"; "pitchspeed"; "yawspeed"; "lat"; "lon"; "alt"; "vx"; "vy"; "vz"; "ind_airspeed"; "true_airspeed"; "xacc"; "yacc"; "zacc"]
    [("time_usec", "time_usec"); ("attitude_quaternion", "attitude_quaternion"); ("rollspeed", "rollspeed"); ("pitchspeed", "pitchspeed"); ("yawspeed", "yawspeed"); ("lat", "lat"); ("lon", "lon"); ("alt", "alt"); ("vx", "vx"); ("vy", "vy"); ("vz", "vz"); ("ind_airspeed", "ind_airspeed"); ("true_airspeed", "true_airspeed"); ("xacc", "xacc"); ("yacc", "yacc"); ("zacc", "zacc")]
    [("time_usec", None); ("attitude_quaternion", Some 0); ("attitude_quaternion", Some 1); ("attitude_quaternion", Some 2); ("attitude_quaternion", Some 3); ("rollspeed", None); ("pitchspeed", None); ("yawspeed", None); ("lat", None); ("lon", None); ("alt", None); ("vx", None); ("vy", None); ("vz", None); ("ind_airspeed", None); ("true_airspeed", None); ("xacc", None); ("yacc", None); ("zacc", None)];
  (* lines 5556-5597 *)
  Ctor "MAVLink_scaled_imu2_message"
    ["time_boot_ms"; "xacc"; "yacc"; "zacc"; "xgyro"; "ygyro"; "zgyro"; "xmag"; "ymag"; "zmag"]
    [("time_boot_ms", "time_boot_ms"); ("xacc", "xacc"); ("yacc", "yacc"); ("zacc", "zacc"); ("xgyro", "xgyro"); ("ygyro", "ygyro"); ("zgyro", "zgyro"); ("xmag", "xmag"); ("ymag", "ymag"); ("zmag", "zmag")]
    [("time_boot_ms", None); ("xacc", None); ("yacc", None); ("zacc", None); ("xgyro", None); ("ygyro", None); ("zgyro", None); ("xmag", None); ("ymag", None); ("zmag", None)];
  (* lines 5599-5633 *)
  Ctor "MAVLink_log_request_list_message"
    ["target_system"; "target_component"; "start"; "end"]
    [("target_system", "target_system"); ("target_component", "target_component"); ("start", "start"); ("end", "end")]
    [("start", None); ("end", None); ("target_system", None); ("target_component", None)];
  (* lines 5635-5669 *)
  Ctor "MAVLink_log_entry_message"
    ["id"; "num_logs"; "last_log_num"; "time_utc"; "size"]
    [("id", "id"); ("num_logs", "num_logs"); ("last_log_num", "last_log_num"); ("time_utc", "time_utc"); ("size", "size")]
    [("time_utc", None); ("size", None); ("id", None); ("num_logs", None); ("last_log_num", None)];
  (* lines 5671-5705 *)
  Ctor "MAVLink_log_request_data_message"
    ["target_system"; "target_component"; "id"; "ofs"; "count"]
    [("target_system", "target_system"); ("target_component", "target_component"); ("id", "id"); ("ofs", "ofs"); ("count", "count")]
    [("ofs", None); ("count", None); ("id", None); ("target_system", None); ("target_component", None)];
  (* lines 5707-5740 *)
  Ctor "MAVLink_log_data_message"
    ["id"; "ofs"; "count"; "data"]
    [("id", "id"); ("ofs", "ofs"); ("count", "count"); ("data", "data")]
    [("ofs", None); ("id", None); ("count", None); ("data", Some 0); ("data", Some 1); ("data", Some 2); ("data", Some 3); ("data", Some 4); ("data", Some 5); ("data", Some 6); ("data", Some 7); ("data", Some 8); ("data", Some 9); ("data", Some 10); ("data", Some 11); ("data", Some 12); ("data", Some 13); ("data", Some 14); ("data", Some 15); ("data", Some 16); ("data", Some 17); ("data", Some 18); ("data", Some 19); ("data", Some 20); ("data", Some 21); ("data", Some 22); ("data", Some 23); ("data", Some 24); ("data", Some 25); ("data", Some 26); ("data", Some 27); ("data", Some 28); ("data", Some 29); ("data", Some 30); ("data", Some 31); ("data", Some 32); ("data", Some 33); ("data", Some 34); ("data", Some 35); ("data", Some 36); ("data", Some 37); ("data", Some 38); ("data", Some 39); ("data", Some 40); ("data", Some 41); ("data", Some 42); ("data", Some 43); ("data", Some 44); ("data", Some 45); ("data", Some 46); ("data", Some 47); ("data", Some 48); ("data", Some 49); ("data", Some 50); ("data", Some 51); ("data", Some 52); ("data", Some 53); ("data", Some 54); ("data", Some 55); ("data", Some 56); ("data", Some 57); ("data", Some 58); ("data", Some 59); ("data", Some 60); ("data", Some 61); ("data", Some 62); ("data", Some 63); ("data", Some 64); ("data", Some 65); ("data", Some 66); ("data", Some 67); ("data", Some 68); ("data", Some 69); ("data", Some 70); ("data", Some 71); ("data", Some 72); ("data", Some 73); ("data", Some 74); ("data", Some 75); ("data", Some 76); ("data", Some 77); ("data", Some 78); ("data", Some 79); ("data", Some 80); ("data", Some 81); ("data", Some 82); ("data", Some 83); ("data", Some 84); ("data", Some 85); ("data", Some 86); ("data", Some 87); ("data", Some 88); ("data", Some 89)];
  (* lines 5742-5773 *)
  Ctor "MAVLink_log_erase_message"
    ["target_system"; "target_component"]
    [("target_system", "target_system"); ("target_component", "target_component")]
    [("target_system", None); ("target_component", None)];
  (* lines 5775-5806 *)
  Ctor "MAVLink_log_request_end_message"
    ["target_system"; "target_component"]
    [("target_system", "target_system"); ("target_component", "target_component")]
    [("target_system", None); ("target_component", None)];
  (* lines 5808-5841 *)
  Ctor "MAVLink_gps_inject_data_message"
    ["target_system"; "target_component"; "len"; "data"]
    [("target_system", "target_system"); ("target_component", "target_component"); ("len", "len"); ("data", "data")]
    [("target_system", None); ("target_component", None); ("len", None); ("data", Some 0); ("data", Some 1); ("data", Some 2); ("data", Some 3); ("data", Some 4); ("data", Some 5); ("data", Some 6); ("data", Some 7); ("data", Some 8); ("data", Some 9); ("data", Some 10); ("data", Some 11); ("data", Some 12); ("data", Some 13); ("data", Some 14); ("data", Some 15); ("data", Some 16); ("data", Some 17); ("data", Some 18); ("data", Some 19); ("data", Some 20); ("data", Some 21); ("data", Some 22); ("data", Some 23); ("data", Some 24); ("data", Some 25); ("data", Some 26); ("data", Some 27); ("data", Some 28); ("data", Some 29); ("data", Some 30); ("data", Some 31); ("data", Some 32); ("data", Some 33); ("data", Some 34); ("data", Some 35); ("data", Some 36); ("data", Some 37); ("data", Some 38); ("data", Some 39); ("data", Some 40); ("data", Some 41); ("data", Some 42); ("data", Some 43); ("data", Some 44); ("data", Some 45); ("data", Some 46); ("data", Some 47); ("data", Some 48); ("data", Some 49); ("data", Some 50); ("data", Some 51); ("data", Some 52); ("data", Some 53); ("data", Some 54); ("data", Some 55); ("data", Some 56); ("data", Some 57); ("data", Some 58); ("data", Some 59); ("data", Some 60); ("data", Some 61); ("data", Some 62); ("data", Some 63); ("data", Some 64); ("data", Some 65); ("data", Some 66); ("data", Some 67); ("data", Some 68); ("data", Some 69); ("data", Some 70); ("data", Some 71); ("data", Some 72); ("data", Some 73); ("data", Some 74); ("data", Some 75); ("data", Some 76); ("data", Some 77); ("data", Some 78); ("data", Some 79); ("data", Some 80); ("data", Some 81); ("data", Some 82); ("data", Some 83); ("data", Some 84); ("data", Some 85); ("data", Some 86); ("data", Some 87); ("data", Some 88); ("data", Some 89); ("data", Some 90); ("data", Some 91); ("data", Some 92); ("data", Some 93); ("data", Some 94); ("data", Some 95); ("data", Some 96); ("data", Some 97); ("data", Some 98); ("data", Some 99); ("data", Some 100); ("data", Some 101); ("data", Some 102); ("data", Some 103); ("data", Some 104); ("data", Some 105); ("data", Some 106); ("data", Some 107); ("data", Some 108); ("data", Some 109)];
  (* lines 5843-5885 *)
  Ctor "MAVLink_gps2_raw_message"
    ["time_usec"; "fix_type"; "lat"; "lon"; "alt"; "eph"; "epv"; "vel"; "cog"; "satellites_visible"; "dgps_numch"; "dgps_age"]
    [("time_usec", "time_usec"); ("fix_type", "fix_type"); ("lat", "lat"); ("lon", "lon"); ("alt", "alt"); ("eph", "eph"); ("epv", "epv"); ("vel", "vel"); ("cog", "cog"); ("satellites_visible", "satellites_visible"); ("dgps_numch", "dgps_numch"); ("dgps_age", "dgps_age")]
    [("time_usec", None); ("lat", None); ("lon", None); ("alt", None); ("dgps_age", None); ("eph", None); ("epv", None); ("vel", None); ("cog", None); ("fix_type", None); ("satellites_visible", None); ("dgps_numch", None)];
  (* lines 5887-5919 *)
  Ctor "MAVLink_power_status_message"
    ["Vcc"; "Vservo"; "flags"]
    [("Vcc", "Vcc"); ("Vservo", "Vservo"); ("flags", "flags")]
    [("Vcc", None); ("Vservo", None); ("flags", None)];
  (* lines 5921-5960 *)
  Ctor "MAVLink_serial_control_message"
    ["device"; "flags"; "timeout"; "baudrate"; "count"; "data"]
    [("device", "device"); ("flags", "flags"); ("timeout", "timeout"); ("baudrate", "baudrate"); ("count", "count"); ("data", "data")]
    [("baudrate", None); ("timeout", None); ("device", None); ("flags", None); ("count", None); ("data", Some 0); ("data", Some 1); ("data", Some 2); ("data", Some 3); ("data", Some 4); ("data", Some 5); ("data", Some 6); ("data", Some 7); ("data", Some 8); ("data", Some 9); ("data", Some 10); ("data", Some 11); ("data", Some 12); ("data", Some 13); ("data", Some 14); ("data", Some 15); ("data", Some 16); ("data", Some 17); ("data", Some 18); ("data", Some 19); ("data", Some 20); ("data", Some 21); ("data", Some 22); ("data", Some 23); ("data", Some 24); ("data", Some 25); ("data", Some 26); ("data", Some 27); ("data", Some 28); ("data", Some 29); ("data", Some 30); ("data", Some 31); ("data", Some 32); ("data", Some 33); ("data", Some 34); ("data", Some 35); ("data", Some 36); ("data", Some 37); ("data", Some 38); ("data", Some 39); ("data", Some 40); ("data", Some 41); ("data", Some 42); ("data", Some 43); ("data", Some 44); ("data", Some 45); ("data", Some 46); ("data", Some 47); ("data", Some 48); ("data", Some 49); ("data", Some 50); ("data", Some 51); ("data", Some 52); ("data", Some 53); ("data", Some 54); ("data", Some 55); ("data", Some 56); ("data", Some 57); ("data", Some 58); ("data", Some 59); ("data", Some 60); ("data", Some 61); ("data", Some 62); ("data", Some 63); ("data", Some 64); ("data", Some 65); ("data", Some 66); ("data", Some 67); ("data", Some 68); ("data", Some 69); ("data", Some 70); ("data", Some 71); ("data", Some 72); ("data", Some 73); ("data", Some 74); ("data", Some 75); ("data", Some 76); ("data", Some 77); ("data", Some 78); ("data", Some 79)];
  (* lines 5962-6005 *)
  Ctor "MAVLink_gps_rtk_message"
    ["time_last_baseline_ms"; "rtk_receiver_id"; "wn"; "tow"; "rtk_health"; "rtk_rate"; "nsats"; "baseline_coords_type"; "baseline_a_mm"; "baseline_b_mm"; "baseline_c_mm"; "accuracy"; "iar_num_hypotheses"]
    [("time_last_baseline_ms", "time_last_baseline_ms"); ("rtk_receiver_id", "rtk_receiver_id"); ("wn", "wn"); ("tow", "tow"); ("rtk_health", "rtk_health"); ("rtk_rate", "rtk_rate"); ("nsats", "nsats"); ("baseline_coords_type", "baseline_coords_type"); ("baseline_a_mm", "baseline_a_mm"); ("baseline_b_mm", "baseline_b_mm"); ("baseline_c_mm", "baseline_c_mm"); ("accuracy", "accuracy"); ("iar_num_hypotheses", "iar_num_hypotheses")]
    [("time_last_baseline_ms", None); ("tow", None); ("baseline_a_mm", None); ("baseline_b_mm", None); ("baseline_c_mm", None); ("accuracy", None); ("iar_num_hypotheses", None); ("wn", None); ("rtk_receiver_id", None); ("rtk_health", None); ("rtk_rate", None); ("nsats", None); ("baseline_coords_type", None)];
  (* lines 6007-6050 *)
  Ctor "MAVLink_gps2_rtk_message"
    ["time_last_baseline_ms"; "rtk_receiver_id"; "wn"; "tow"; "rtk_health"; "rtk_rate"; "nsats"; "baseline_coords_type"; "baseline_a_mm"; "baseline_b_mm"; "baseline_c_mm"; "accuracy"; "iar_num_hypotheses"]
    [("time_last_baseline_ms", "time_last_baseline_ms"); ("rtk_receiver_id", "rtk_receiver_id"); ("wn", "wn"); ("tow", "tow"); ("rtk_health", "rtk_health"); ("rtk_rate", "rtk_rate"); ("nsats", "nsats"); ("baseline_coords_type", "baseline_coords_type"); ("baseline_a_mm", "baseline_a_mm"); ("baseline_b_mm", "baseline_b_mm"); ("baseline_c_mm", "baseline_c_mm"); ("accuracy", "accuracy"); ("iar_num_hypotheses", "iar_num_hypotheses")]
    [("time_last_baseline_ms", None); ("tow", None); ("baseline_a_mm", None); ("baseline_b_mm", None); ("baseline_c_mm", None); ("accuracy", None); ("iar_num_hypotheses", None); ("wn", None); ("rtk_receiver_id", None); ("rtk_health", None); ("rtk_rate", None); ("nsats", None); ("baseline_coords_type", None)];
  (* lines 6052-6092 *)
  Ctor "MAVLink_scaled_imu3_message"
    ["time_boot_ms"; "xacc"; "yacc"; "zacc"; "xgyro"; "ygyro"; "zgyro"; "xmag"; "ymag"; "zmag"]
    [("time_boot_ms", "time_boot_ms"); ("xacc", "xacc"); ("yacc", "yacc"); ("zacc", "zacc"); ("xgyro", "xgyro"); ("ygyro", "ygyro"); ("zgyro", "zgyro"); ("xmag", "xmag"); ("ymag", "ymag"); ("zmag", "zmag")]
    [("time_boot_ms", None); ("xacc", None); ("yacc", None); ("zacc", None); ("xgyro", None); ("ygyro", None); ("zgyro", None); ("xmag", None); ("ymag", None); ("zmag", None)];
  (* lines 6094-6130 *)
  Ctor "MAVLink_data_transmission_handshake_message"
    ["type"; "size"; "width"; "height"; "packets"; "payload"; "jpg_quality"]
    [("type", "type"); ("size", "size"); ("width", "width"); ("height", "height"); ("packets", "packets"); ("payload", "payload"); ("jpg_quality", "jpg_quality")]
    [("size", None); ("width", None); ("height", None); ("packets", None); ("type", None); ("payload", None); ("jpg_quality", None)];
  (* lines 6132-6163 *)
  Ctor "MAVLink_encapsulated_data_message"
    ["seqnr"; "data"]
    [("seqnr", "seqnr"); ("data", "data")]
    [("seqnr", None); ("data", Some 0); ("data", Some 1); ("data", Some 2); ("data", Some 3); ("data", Some 4); ("data", Some 5); ("data", Some 6); ("data", Some 7); ("data", Some 8); ("data", Some 9); ("data", Some 10); ("data", Some 11); ("data", Some 12); ("data", Some 13); ("data", Some 14); ("data", Some 15); ("data", Some 16); ("data", Some 17); ("data", Some 18); ("data", Some 19); ("data", Some 20); ("data", Some 21); ("data", Some 22); ("data", Some 23); ("data", Some 24); ("data", Some 25); ("data", Some 26); ("data", Some 27); ("data", Some 28); ("data", Some 29); ("data", Some 30); ("data", Some 31); ("data", Some 32); ("data", Some 33); ("data", Some 34); ("data", Some 35); ("data", Some 36); ("data", Some 37); ("data", Some 38); ("data", Some 39); ("data", Some 40); ("data", Some 41); ("data", Some 42); ("data", Some 43); ("data", Some 44); ("data", Some 45); ("data", Some 46); ("data", Some 47); ("data", Some 48); ("data", Some 49); ("data", Some 50); ("data", Some 51); ("data", Some 52); ("data", Some 53); ("data", Some 54); ("data", Some 55); ("data", Some 56); ("data", Some 57); ("data", Some 58); ("data", Some 59); ("data", Some 60); ("data", Some 61); ("data", Some 62); ("data", Some 63); ("data", Some 64); ("data", Some 65); ("data", Some 66); ("data", Some 67); ("data", Some 68); ("data", Some 69); ("data", Some 70); ("data", Some 71); ("data", Some 72); ("data", Some 73); ("data", Some 74); ("data", Some 75); ("data", Some 76); ("data", Some 77); ("data", Some 78); ("data", Some 79); ("data", Some 80); ("data", Some 81); ("data", Some 82); ("data", Some 83); ("data", Some 84); ("data", Some 85); ("data", Some 86); ("data", Some 87); ("data", Some 88); ("data", Some 89); ("data", Some 90); ("data", Some 91); ("data", Some 92); ("data", Some 93); ("data", Some 94); ("data", Some 95); ("data", Some 96); ("data", Some 97); ("data", Some 98); ("data", Some 99); ("data", Some 100); ("data", Some 101); ("data", Some 102); ("data", Some 103); ("data", Some 104); ("data", Some 105); ("data", Some 106); ("data", Some 107); ("data", Some 108); ("data", Some 109); ("data", Some 110); ("data", Some 111); ("data", Some 112); ("data", Some 113); ("data", Some 114); ("data", Some 115); ("data", Some 116); ("data", Some 117); ("data", Some 118); ("data", Some 119); ("data", Some 120); ("data", Some 121); ("data", Some 122); ("data", Some 123); ("data", Some 124); ("data", Some 125); ("data", Some 126); ("data", Some 127); ("data", Some 128); ("data", Some 129); ("data", Some 130); ("data", Some 131); ("data", Some 132); ("data", Some 133); ("data", Some 134); ("data", Some 135); ("data", Some 136); ("data", Some 137); ("data", Some 138); ("data", Some 139); ("data", Some 140); ("data", Some 141); ("data", Some 142); ("data", Some 143); ("data", Some 144); ("data", Some 145); ("data", Some 146); ("data", Some 147); ("data", Some 148); ("data", Some 149); ("data", Some 150); ("data", Some 151); ("data", Some 152); ("data", Some 153); ("data", Some 154); ("data", Some 155); ("data", Some 156); ("data", Some 157); ("data", Some 158); ("data", Some 159); ("data", Some 160); ("data", Some 161); ("data", Some 162); ("data", Some 163); ("data", Some 164); ("data", Some 165); ("data", Some 166); ("data", Some 167); ("data", Some 168); ("data", Some 169); ("data", Some 170); ("data", Some 171); ("data", Some 172); ("data", Some 173); ("data", Some 174); ("data", Some 175); ("data", Some 176); ("data", Some 177); ("data", Some 178); ("data", Some 179); ("data", Some 180); ("data", Some 181); ("data", Some 182); ("data", Some 183); ("data", Some 184); ("data", Some 185); ("data", Some 186); ("data", Some 187); ("data", Some 188); ("data", Some 189); ("data", Some 190); ("data", Some 191); ("data", Some 192); ("data", Some 193); ("data", Some 194); ("data", Some 195); ("data", Some 196); ("data", Some 197); ("data", Some 198); ("data", Some 199); ("data", Some 200); ("data", Some 201); ("data", Some 202); ("data", Some 203); ("data", Some 204); ("data", Some 205); ("data", Some 206); ("data", Some 207); ("data", Some 208); ("data", Some 209); ("data", Some 210); ("data", Some 211); ("data", Some 212); ("data", Some 213); ("data", Some 214); ("data", Some 215); ("data", Some 216); ("data", Some 217); ("data", Some 218); ("data", Some 219); ("data", Some 220); ("data", Some 221); ("data", Some 222); ("data", Some 223); ("data", Some 224); ("data", Some 225); ("data", Some 226); ("data", Some 227); ("data", Some 228); ("data", Some 229); ("data", Some 230); ("data", Some 231); ("data", Some 232); ("data", Some 233); ("data", Some 234); ("data", Some 235); ("data", Some 236); ("data", Some 237); ("data", Some 238); ("data", Some 239); ("data", Some 240); ("data", Some 241); ("data", Some 242); ("data", Some 243); ("data", Some 244); ("data", Some 245); ("data", Some 246); ("data", Some 247); ("data", Some 248); ("data", Some 249); ("data", Some 250); ("data", Some 251); ("data", Some 252)];
  (* lines 6165-6202 *)
  Ctor "MAVLink_distance_sensor_message"
    ["time_boot_ms"; "min_distance"; "max_distance"; "current_distance"; "type"; "id"; "orientation"; "covariance"]
    [("time_boot_ms", "time_boot_ms"); ("min_distance", "min_distance"); ("max_distance", "max_distance"); ("current_distance", "current_distance"); ("type", "type"); ("id", "id"); ("orientation", "orientation"); ("covariance", "covariance")]
    [("time_boot_ms", None); ("min_distance", None); ("max_distance", None); ("current_distance", None); ("type", None); ("id", None); ("orientation", None); ("covariance", None)];
  (* lines 6204-6237 *)
  Ctor "MAVLink_terrain_request_message"
    ["lat"; "lon"; "grid_spacing"; "mask"]
    [("lat", "lat"); ("lon", "lon"); ("grid_spacing", "grid_spacing"); ("mask", "mask")]
    [("mask", None); ("lat", None); ("lon", None); ("grid_spacing", None)];
  (* lines 6239-6274 *)
  Ctor "MAVLink_terrain_data_message"
    ["lat"; "lon"; "grid_spacing"; "gridbit"; "data"]
    [("lat", "lat"); ("lon", "lon"); ("grid_spacing", "grid_spacing"); ("gridbit", "gridbit"); ("data", "data")]
    [("lat", None); ("lon", None); ("grid_spacing", None); ("data", Some 0); ("data", Some 1); ("data", Some 2); ("data", Some 3); ("data", Some 4); ("data", Some 5); ("data", Some 6); ("data", Some 7); ("data", Some 8); ("data", Some 9); ("data", Some 10); ("data", Some 11); ("data", Some 12); ("data", Some 13); ("data", Some 14); ("data", Some 15); ("gridbit", None)];
  (* lines 6276-6309 *)
  Ctor "MAVLink_terrain_check_message"
    ["lat"; "lon"]
    [("lat", "lat"); ("lon", "lon")]
    [("lat", None); ("lon", None)];
  (* lines 6311-6347 *)
  Ctor "MAVLink_terrain_report_message"
    ["lat"; "lon"; "spacing"; "terrain_height"; "current_height"; "pending"; "loaded"]
    [("lat", "lat"); ("lon", "lon"); ("spacing", "spacing"); ("terrain_height", "terrain_height"); ("current_height", "current_height"); ("pending", "pending"); ("loaded", "loaded")]
    [("lat", None); ("lon", None); ("terrain_height", None); ("current_height", None); ("spacing", None); ("pending", None); ("loaded", None)];
  (* lines 6349-6382 *)
  Ctor "MAVLink_scaled_pressure2_message"
    ["time_boot_ms"; "press_abs"; "press_diff"; "temperature"]
    [("time_boot_ms", "time_boot_ms"); ("press_abs", "press_abs"); ("press_diff", "press_diff"); ("temperature", "temperature")]
    [("time_boot_ms", None); ("press_abs", None); ("press_diff", None); ("temperature", None)];
  (* lines 6384-6418 *)
  Ctor "MAVLink_att_pos_mocap_message"
    ["time_usec"; "q"; "x"; "y"; "z"]
    [("time_usec", "time_usec"); ("q", "q"); ("x", "x"); ("y", "y"); ("z", "z")]
    [("time_usec", None); ("q", Some 0); ("q", Some 1); ("q", Some 2); ("q", Some 3); ("x", None); ("y", None); ("z", None)];
  (* lines 6420-6454 *)
  Ctor "MAVLink_set_actuator_control_target_message"
    ["time_usec"; "group_mlx"; "target_system"; "target_component"; "controls"]
    [("time_usec", "time_usec"); ("group_mlx", "group_mlx"); ("target_system", "target_system"); ("target_component", "target_component"); ("controls", "controls")]
    [("time_usec", None); ("controls", Some 0); ("controls", Some 1); ("controls", Some 2); ("controls", Some 3); ("controls", Some 4); ("controls", Some 5); ("controls", Some 6); ("controls", Some 7); ("group_mlx", None); ("target_system", None); ("target_component", None)];
  (* lines 6456-6488 *)
  Ctor "MAVLink_actuator_control_target_message"
    ["time_usec"; "group_mlx"; "controls"]
    [("time_usec", "time_usec"); ("group_mlx", "group_mlx"); ("controls", "controls")]
    [("time_usec", None); ("controls", Some 0); ("controls", Some 1); ("controls", Some 2); ("controls", Some 3); ("controls", Some 4); ("controls", Some 5); ("controls", Some 6); ("controls", Some 7); ("group_mlx", None)];
  (* lines 6490-6526 *)
  Ctor "MAVLink_altitude_message"
    ["time_usec"; "altitude_monotonic"; "altitude_amsl"; "altitude_local"; "altitude_relative"; "altitude_terrain"; "bottom_clearance"]
    [("time_usec", "time_usec"); ("altitude_monotonic", "altitude_monotonic"); ("altitude_amsl", "altitude_amsl"); ("altitude_local", "altitude_local"); ("altitude_relative", "altitude_relative"); ("altitude_terrain", "altitude_terrain"); ("bottom_clearance", "bottom_clearance")]
    [("time_usec", None); ("altitude_monotonic", None); ("altitude_amsl", None); ("altitude_local", None); ("altitude_relative", None); ("altitude_terrain", None); ("bottom_clearance", None)];
  (* lines 6528-6563 *)
  Ctor "MAVLink_resource_request_message"
    ["request_id"; "uri_type"; "uri"; "transfer_type"; "storage"]
    [("request_id", "request_id"); ("uri_type", "uri_type"); ("uri", "uri"); ("transfer_type", "transfer_type"); ("storage", "storage")]
    [("request_id", None); ("uri_type", None); ("uri", Some 0); ("uri", Some 1); ("uri", Some 2); ("uri", Some 3); ("uri", Some 4); ("uri", Some 5); ("uri", Some 6); ("uri", Some 7); ("uri", Some 8); ("uri", Some 9); ("uri", Some 10); ("uri", Some 11); ("uri", Some 12); ("uri", Some 13); ("uri", Some 14); ("uri", Some 15); ("uri", Some 16); ("uri", Some 17); ("uri", Some 18); ("uri", Some 19); ("uri", Some 20); ("uri", Some 21); ("uri", Some 22); ("uri", Some 23); ("uri", Some 24); ("uri", Some 25); ("uri", Some 26); ("uri", Some 27); ("uri", Some 28); ("uri", Some 29); ("uri", Some 30); ("uri", Some 31); ("uri", Some 32); ("uri", Some 33); ("uri", Some 34); ("uri", Some 35); ("uri", Some 36); ("uri", Some 37); ("uri", Some 38); ("uri", Some 39); ("uri", Some 40); ("uri", Some 41); ("uri", Some 42); ("uri", Some 43); ("uri", Some 44); ("uri", Some 45); ("uri", Some 46); ("uri", Some 47); ("uri", Some 48); ("uri", Some 49); ("uri", Some 50); ("uri", Some 51); ("uri", Some 52); ("uri", Some 53); ("uri", Some 54); ("uri", Some 55); ("uri", Some 56); ("uri", Some 57); ("uri", Some 58); ("uri", Some 59); ("uri", Some 60); ("uri", Some 61); ("uri", Some 62); ("uri", Some 63); ("uri", Some 64); ("uri", Some 65); ("uri", Some 66); ("uri", Some 67); ("uri", Some 68); ("uri", Some 69); ("uri", Some 70); ("uri", Some 71); ("uri", Some 72); ("uri", Some 73); ("uri", Some 74); ("uri", Some 75); ("uri", Some 76); ("uri", Some 77); ("uri", Some 78); ("uri", Some 79); ("uri", Some 80); ("uri", Some 81); ("uri", Some 82); ("uri", Some 83); ("uri", Some 84); ("uri", Some 85); ("uri", Some 86); ("uri", Some 87); ("uri", Some 88); ("uri", Some 89); ("uri", Some 90); ("uri", Some 91); ("uri", Some 92); ("uri", Some 93); ("uri", Some 94); ("uri", Some 95); ("uri", Some 96); ("uri", Some 97); ("uri", Some 98); ("uri", Some 99); ("uri", Some 100); ("uri", Some 101); ("uri", Some 102); ("uri", Some 103); ("uri", Some 104); ("uri", Some 105); ("uri", Some 106); ("uri", Some 107); ("uri", Some 108); ("uri", Some 109); ("uri", Some 110); ("uri", Some 111); ("uri", Some 112); ("uri", Some 113); ("uri", Some 114); ("uri", Some 115); ("uri", Some 116); ("uri", Some 117); ("uri", Some 118); ("uri", Some 119); ("transfer_type", None); ("storage", Some 0); ("storage", Some 1); ("storage", Some 2); ("storage", Some 3); ("storage", Some 4); ("storage", Some 5); ("storage", Some 6); ("storage", Some 7); ("storage", Some 8); ("storage", Some 9); ("storage", Some 10); ("storage", Some 11); ("storage", Some 12); ("storage", Some 13); ("storage", Some 14); ("storage", Some 15); ("storage", Some 16); ("storage", Some 17); ("storage", Some 18); ("storage", Some 19); ("storage", Some 20); ("storage", Some 21); ("storage", Some 22); ("storage", Some 23); ("storage", Some 24); ("storage", Some 25); ("storage", Some 26); ("storage", Some 27); ("storage", Some 28); ("storage", Some 29); ("storage", Some 30); ("storage", Some 31); ("storage", Some 32); ("storage", Some 33); ("storage", Some 34); ("storage", Some 35); ("storage", Some 36); ("storage", Some 37); ("storage", Some 38); ("storage", Some 39); ("storage", Some 40); ("storage", Some 41); ("storage", Some 42); ("storage", Some 43); ("storage", Some 44); ("storage", Some 45); ("storage", Some 46); ("storage", Some 47); ("storage", Some 48); ("storage", Some 49); ("storage", Some 50); ("storage", Some 51); ("storage", Some 52); ("storage", Some 53); ("storage", Some 54); ("storage", Some 55); ("storage", Some 56); ("storage", Some 57); ("storage", Some 58); ("storage", Some 59); ("storage", Some 60); ("storage", Some 61); ("storage", Some 62); ("storage", Some 63); ("storage", Some 64); ("storage", Some 65); ("storage", Some 66); ("storage", Some 67); ("storage", Some 68); ("storage", Some 69); ("storage", Some 70); ("storage", Some 71); ("storage", Some 72); ("storage", Some 73); ("storage", Some 74); ("storage", Some 75); ("storage", Some 76); ("storage", Some 77); ("storage", Some 78); ("storage", Some 79); ("storage", Some 80); ("storage", Some 81); ("storage", Some 82); ("storage", Some 83); ("storage", Some 84); ("storage", Some 85); ("storage", Some 86); ("storage", Some 87); ("storage", Some 88); ("storage", Some 89); ("storage", Some 90); ("storage", Some 91); ("storage", Some 92); ("storage", Some 93); ("storage", Some 94); ("storage", Some 95); ("storage", Some 96); ("storage", Some 97); ("storage", Some 98); ("storage", Some 99); ("storage", Some 100); ("storage", Some 101); ("storage", Some 102); ("storage", Some 103); ("storage", Some 104); ("storage", Some 105); ("storage", Some 106); ("storage", Some 107); ("storage", Some 108); ("storage", Some 109); ("storage", Some 110); ("storage", Some 111); ("storage", Some 112); ("storage", Some 113); ("storage", Some 114); ("storage", Some 115); ("storage", Some 116); ("storage", Some 117); ("storage", Some 118); ("storage", Some 119)];
  (* lines 6565-6598 *)
  Ctor "MAVLink_scaled_pressure3_message"
    ["time_boot_ms"; "press_abs"; "press_diff"; "temperature"]
    [("time_boot_ms", "time_boot_ms"); ("press_abs", "press_abs"); ("press_diff", "press_diff"); ("temperature", "temperature")]
    [("time_boot_ms", None); ("press_abs", None); ("press_diff", None); ("temperature", None)];
  (* lines 6600-6647 *)
  Ctor "MAVLink_control_system_state_message"
    ["time_usec"; "x_acc"; "y_acc"; "z_acc"; "x_vel"; "y_vel"; "z_vel"; "x_pos"; "y_pos"; "z_pos"; "airspeed"; "vel_variance"; "pos_variance"; "q"; "roll_rate"; "pitch_rate"; "yaw_rate"]
    [("time_usec", "time_usec"); ("x_acc", "x_acc"); ("y_acc", "y_acc"); ("z_acc", "z_acc"); ("x_vel", "x_vel"); ("y_vel", "y_vel"); ("z_vel", "z_vel"); ("x_pos", "x_pos"); ("y_pos", "y_pos"); ("z_pos", "z_pos"); ("airspeed", "airspeed"); ("vel_variance", "vel_variance"); ("pos_variance", "pos_variance"); ("q", "q"); ("roll_rate", "roll_rate"); ("pitch_rate", "pitch_rate"); ("yaw_rate", "yaw_rate")]
    [("time_usec", None); ("x_acc", None); ("y_acc", None); ("z_acc", None); ("x_vel", None); ("y_vel", None); ("z_vel", None); ("x_pos", None); ("y_pos", None); ("z_pos", None); ("airspeed", None); ("vel_variance", Some 0); ("vel_variance", Some 1); ("vel_variance", Some 2); ("pos_variance", Some 0); ("pos_variance", Some 1); ("pos_variance", Some 2); ("q", Some 0); ("q", Some 1); ("q", Some 2); ("q", Some 3); ("roll_rate", None); ("pitch_rate", None); ("yaw_rate", None)];
  (* lines 6649-6687 *)
  Ctor "MAVLink_battery_status_message"
    ["id"; "battery_function"; "type"; "temperature"; "voltages"; "current_battery"; "current_consumed"; "energy_consumed"; "battery_remaining"]
    [("id", "id"); ("battery_function", "battery_function"); ("type", "type"); ("temperature", "temperature"); ("voltages", "voltages"); ("current_battery", "current_battery"); ("current_consumed", "current_consumed"); ("energy_consumed", "energy_consumed"); ("battery_remaining", "battery_remaining")]
    [("current_consumed", None); ("energy_consumed", None); ("temperature", None); ("voltages", Some 0); ("voltages", Some 1); ("voltages", Some 2); ("voltages", Some 3); ("voltages", Some 4); ("voltages", Some 5); ("voltages", Some 6); ("voltages", Some 7); ("voltages", Some 8); ("voltages", Some 9); ("current_battery", None); ("id", None); ("battery_function", None); ("type", None); ("battery_remaining", None)];
  (* lines 6689-6730 *)
  Ctor "MAVLink_autopilot_version_message"
    ["capabilities"; "main_sw_build_time"; "main_sw_version"; "mavlink_sw_version"; "os_sw_version"; "board_version"; "main_custom_version"; "mavlink_custom_version"; "os_custom_version"; "vendor_id"; "product_id"; "uid"]
    [("capabilities", "capabilities"); ("main_sw_build_time", "main_sw_build_time"); ("main_sw_version", "main_sw_version"); ("mavlink_sw_version", "mavlink_sw_version"); ("os_sw_version", "os_sw_version"); ("board_version", "board_version"); ("main_custom_version", "main_custom_version"); ("mavlink_custom_version", "mavlink_custom_version"); ("os_custom_version", "os_custom_version"); ("vendor_id", "vendor_id"); ("product_id", "product_id"); ("uid", "uid")]
    [("capabilities", None); ("main_sw_build_time", None); ("main_sw_version", None); ("mavlink_sw_version", None); ("os_sw_version", None); ("board_version", None); ("uid", Some 0); ("uid", Some 1); ("uid", Some 2); ("vendor_id", None); ("product_id", None); ("main_custom_version", Some 0); ("main_custom_version", Some 1); ("main_custom_version", Some 2); ("main_custom_version", Some 3); ("main_custom_version", Some 4); ("main_custom_version", Some 5); ("main_custom_version", Some 6); ("main_custom_version", Some 7); ("mavlink_custom_version", Some 0); ("mavlink_custom_version", Some 1); ("mavlink_custom_version", Some 2); ("mavlink_custom_version", Some 3); ("mavlink_custom_version", Some 4); ("mavlink_custom_version", Some 5); ("mavlink_custom_version", Some 6); ("mavlink_custom_version", Some 7); ("os_custom_version", Some 0); ("os_custom_version", Some 1); ("os_custom_version", Some 2); ("os_custom_version", Some 3); ("os_custom_version", Some 4); ("os_custom_version", Some 5); ("os_custom_version", Some 6); ("os_custom_version", Some 7)];
  (* lines 6732-6770 *)
  Ctor "MAVLink_landing_target_message"
    ["time_usec"; "target_num"; "frame"; "angle_x"; "angle_y"; "distance"; "size_x"; "size_y"]
    [("time_usec", "time_usec"); ("target_num", "target_num"); ("frame", "frame"); ("angle_x", "angle_x"); ("angle_y", "angle_y"); ("distance", "distance"); ("size_x", "size_x"); ("size_y", "size_y")]
    [("time_usec", None); ("angle_x", None); ("angle_y", None); ("distance", None); ("size_x", None); ("size_y", None); ("target_num", None); ("frame", None)];
  (* lines 6772-6808 *)
  Ctor "MAVLink_vibration_message"
    ["time_usec"; "vibration_x"; "vibration_y"; "vibration_z"; "clipping_0"; "clipping_1"; "clipping_2"]
    [("time_usec", "time_usec"); ("vibration_x", "vibration_x"); ("vibration_y", "vibration_y"); ("vibration_z", "vibration_z"); ("clipping_0", "clipping_0"); ("clipping_1", "clipping_1"); ("clipping_2", "clipping_2")]
    [("time_usec", None); ("vibration_x", None); ("vibration_y", None); ("vibration_z", None); ("clipping_0", None); ("clipping_1", None); ("clipping_2", None)];
  (* lines 6810-6861 *)
  Ctor "MAVLink_home_position_message"
    ["latitude"; "longitude"; "altitude"; "x"; "y"; "z"; "q"; "approach_x"; "approach_y"; "approach_z"]
    [("latitude", "latitude"); ("longitude", "longitude"); ("altitude", "altitude"); ("x", "x"); ("y", "y"); ("z", "z"); ("q", "q"); ("approach_x", "approach_x"); ("approach_y", "approach_y"); ("approach_z", "approach_z")]
    [("latitude", None); ("longitude", None); ("altitude", None); ("x", None); ("y", None); ("z", None); ("q", Some 0); ("q", Some 1); ("q", Some 2); ("q", Some 3); ("approach_x", None); ("approach_y", None); ("approach_z", None)];
  (* lines 6863-6913 *)
  Ctor "MAVLink_set_home_position_message"
    ["target_system"; "latitude"; "longitude"; "altitude"; "x"; "y"; "z"; "q"; "approach_x"; "approach_y"; "approach_z"]
    [("target_system", "target_system"); ("latitude", "latitude"); ("longitude", "longitude"); ("altitude", "altitude"); ("x", "x"); ("y", "y"); ("z", "z"); ("q", "q"); ("approach_x", "approach_x"); ("approach_y", "approach_y"); ("approach_z", "approach_z")]
    [("latitude", None); ("longitude", None); ("altitude", None); ("x", None); ("y", None); ("z", None); ("q", Some 0); ("q", Some 1); ("q", Some 2); ("q", Some 3); ("approach_x", None); ("approach_y", None); ("approach_z", None); ("target_system", None)];
  (* lines 6915-6946 *)
  Ctor "MAVLink_message_interval_message"
    ["message_id"; "interval_us"]
    [("message_id", "message_id"); ("interval_us", "interval_us")]
    [("interval_us", None); ("message_id", None)];
  (* lines 6948-6979 *)
  Ctor "MAVLink_extended_sys_state_message"
    ["vtol_state"; "landed_state"]
    [("vtol_state", "vtol_state"); ("landed_state", "landed_state")]
    [("vtol_state", None); ("landed_state", None)];
  (* lines 6981-7023 *)
  Ctor "MAVLink_adsb_vehicle_message"
    ["ICAO_address"; "lat"; "lon"; "altitude_type"; "altitude"; "heading"; "hor_velocity"; "ver_velocity"; "callsign"; "emitter_type"; "tslc"; "flags"; "squawk"]
    [("ICAO_address", "ICAO_address"); ("lat", "lat"); ("lon", "lon"); ("altitude_type", "altitude_type"); ("altitude", "altitude"); ("heading", "heading"); ("hor_velocity", "hor_velocity"); ("ver_velocity", "ver_velocity"); ("callsign", "callsign"); ("emitter_type", "emitter_type"); ("tslc", "tslc"); ("flags", "flags"); ("squawk", "squawk")]
    [("ICAO_address", None); ("lat", None); ("lon", None); ("altitude", None); ("heading", None); ("hor_velocity", None); ("ver_velocity", None); ("flags", None); ("squawk", None); ("altitude_type", None); ("callsign", None); ("emitter_type", None); ("tslc", None)];
  (* lines 7025-7060 *)
  Ctor "MAVLink_v2_extension_message"
    ["target_network"; "target_system"; "target_component"; "message_type"; "payload"]
    [("target_network", "target_network"); ("target_system", "target_system"); ("target_component", "target_component"); ("message_type", "message_type"); ("payload", "payload")]
    [("message_type", None); ("target_network", None); ("target_system", None); ("target_component", None); ("payload", Some 0); ("payload", Some 1); ("payload", Some 2); ("payload", Some 3); ("payload", Some 4); ("payload", Some 5); ("payload", Some 6); ("payload", Some 7); ("payload", Some 8); ("payload", Some 9); ("payload", Some 10); ("payload", Some 11); ("payload", Some 12); ("payload", Some 13); ("payload", Some 14); ("payload", Some 15); ("payload", Some 16); ("payload", Some 17); ("payload", Some 18); ("payload", Some 19); ("payload", Some 20); ("payload", Some 21); ("payload", Some 22); ("payload", Some 23); ("payload", Some 24); ("payload", Some 25); ("payload", Some 26); ("payload", Some 27); ("payload", Some 28); ("payload", Some 29); ("payload", Some 30); ("payload", Some 31); ("payload", Some 32); ("payload", Some 33); ("payload", Some 34); ("payload", Some 35); ("payload", Some 36); ("payload", Some 37); ("payload", Some 38); ("payload", Some 39); ("payload", Some 40); ("payload", Some 41); ("payload", Some 42); ("payload", Some 43); ("payload", Some 44); ("payload", Some 45); ("payload", Some 46); ("payload", Some 47); ("payload", Some 48); ("payload", Some 49); ("payload", Some 50); ("payload", Some 51); ("payload", Some 52); ("payload", Some 53); ("payload", Some 54); ("payload", Some 55); ("payload", Some 56); ("payload", Some 57); ("payload", Some 58); ("payload", Some 59); ("payload", Some 60); ("payload", Some 61); ("payload", Some 62); ("payload", Some 63); ("payload", Some 64); ("payload", Some 65); ("payload", Some 66); ("payload", Some 67); ("payload", Some 68); ("payload", Some 69); ("payload", Some 70); ("payload", Some 71); ("payload", Some 72); ("payload", Some 73); ("payload", Some 74); ("payload", Some 75); ("payload", Some 76); ("payload", Some 77); ("payload", Some 78); ("payload", Some 79); ("payload", Some 80); ("payload", Some 81); ("payload", Some 82); ("payload", Some 83); ("payload", Some 84); ("payload", Some 85); ("payload", Some 86); ("payload", Some 87); ("payload", Some 88); ("payload", Some 89); ("payload", Some 90); ("payload", Some 91); ("payload", Some 92); ("payload", Some 93); ("payload", Some 94); ("payload", Some 95); ("payload", Some 96); ("payload", Some 97); ("payload", Some 98); ("payload", Some 99); ("payload", Some 100); ("payload", Some 101); ("payload", Some 102); ("payload", Some 103); ("payload", Some 104); ("payload", Some 105); ("payload", Some 106); ("payload", Some 107); ("payload", Some 108); ("payload", Some 109); ("payload", Some 110); ("payload", Some 111); ("payload", Some 112); ("payload", Some 113); ("payload", Some 114); ("payload", Some 115); ("payload", Some 116); ("payload", Some 117); ("payload", Some 118); ("payload", Some 119); ("payload", Some 120); ("payload", Some 121); ("payload", Some 122); ("payload", Some 123); ("payload", Some 124); ("payload", Some 125); ("payload", Some 126); ("payload", Some 127); ("payload", Some 128); ("payload", Some 129); ("payload", Some 130); ("payload", Some 131); ("payload", Some 132); ("payload", Some 133); ("payload", Some 134); ("payload", Some 135); ("payload", Some 136); ("payload", Some 137); ("payload", Some 138); ("payload", Some 139); ("payload", Some 140); ("payload", Some 141); ("payload", Some 142); ("payload", Some 143); ("payload", Some 144); ("payload", Some 145); ("payload", Some 146); ("payload", Some 147); ("payload", Some 148); ("payload", Some 149); ("payload", Some 150); ("payload", Some 151); ("payload", Some 152); ("payload", Some 153); ("payload", Some 154); ("payload", Some 155); ("payload", Some 156); ("payload", Some 157); ("payload", Some 158); ("payload", Some 159); ("payload", Some 160); ("payload", Some 161); ("payload", Some 162); ("payload", Some 163); ("payload", Some 164); ("payload", Some 165); ("payload", Some 166); ("payload", Some 167); ("payload", Some 168); ("payload", Some 169); ("payload", Some 170); ("payload", Some 171); ("payload", Some 172); ("payload", Some 173); ("payload", Some 174); ("payload", Some 175); ("payload", Some 176); ("payload", Some 177); ("payload", Some 178); ("payload", Some 179); ("payload", Some 180); ("payload", Some 181); ("payload", Some 182); ("payload", Some 183); ("payload", Some 184); ("payload", Some 185); ("payload", Some 186); ("payload", Some 187); ("payload", Some 188); ("payload", Some 189); ("payload", Some 190); ("payload", Some 191); ("payload", Some 192); ("payload", Some 193); ("payload", Some 194); ("payload", Some 195); ("payload", Some 196); ("payload", Some 197); ("payload", Some 198); ("payload", Some 199); ("payload", Some 200); ("payload", Some 201); ("payload", Some 202); ("payload", Some 203); ("payload", Some 204); ("payload", Some 205); ("payload", Some 206); ("payload", Some 207); ("payload", Some 208); ("payload", Some 209); ("payload", Some 210); ("payload", Some 211); ("payload", Some 212); ("payload", Some 213); ("payload", Some 214); ("payload", Some 215); ("payload", Some 216); ("payload", Some 217); ("payload", Some 218); ("payload", Some 219); ("payload", Some 220); ("payload", Some 221); ("payload", Some 222); ("payload", Some 223); ("payload", Some 224); ("payload", Some 225); ("payload", Some 226); ("payload", Some 227); ("payload", Some 228); ("payload", Some 229); ("payload", Some 230); ("payload", Some 231); ("payload", Some 232); ("payload", Some 233); ("payload", Some 234); ("payload", Some 235); ("payload", Some 236); ("payload", Some 237); ("payload", Some 238); ("payload", Some 239); ("payload", Some 240); ("payload", Some 241); ("payload", Some 242); ("payload", Some 243); ("payload", Some 244); ("payload", Some 245); ("payload", Some 246); ("payload", Some 247); ("payload", Some 248)];
  (* lines 7062-7097 *)
  Ctor "MAVLink_memory_vect_message"
    ["address"; "ver"; "type"; "value"]
    [("address", "address"); ("ver", "ver"); ("type", "type"); ("value", "value")]
    [("address", None); ("ver", None); ("type", None); ("value", Some 0); ("value", Some 1); ("value", Some 2); ("value", Some 3); ("value", Some 4); ("value", Some 5); ("value", Some 6); ("value", Some 7); ("value", Some 8); ("value", Some 9); ("value", Some 10); ("value", Some 11); ("value", Some 12); ("value", Some 13); ("value", Some 14); ("value", Some 15); ("value", Some 16); ("value", Some 17); ("value", Some 18); ("value", Some 19); ("value", Some 20); ("value", Some 21); ("value", Some 22); ("value", Some 23); ("value", Some 24); ("value", Some 25); ("value", Some 26); ("value", Some 27); ("value", Some 28); ("value", Some 29); ("value", Some 30); ("value", Some 31)];
  (* lines 7099-7133 *)
  Ctor "MAVLink_debug_vect_message"
    ["name"; "time_usec"; "x"; "y"; "z"]
    [("name", "name"); ("time_usec", "time_usec"); ("x", "x"); ("y", "y"); ("z", "z")]
    [("time_usec", None); ("x", None); ("y", None); ("z", None); ("name", None)];
  (* lines 7135-7169 *)
  Ctor "MAVLink_named_value_float_message"
    ["time_boot_ms"; "name"; "value"]
    [("time_boot_ms", "time_boot_ms"); ("name", "name"); ("value", "value")]
    [("time_boot_ms", None); ("value", None); ("name", None)];
  (* lines 7171-7205 *)
  Ctor "MAVLink_named_value_int_message"
    ["time_boot_ms"; "name"; "value"]
    [("time_boot_ms", "time_boot_ms"); ("name", "name"); ("value", "value")]
    [("time_boot_ms", None); ("value", None); ("name", None)];
  (* lines 7207-7243 *)
  Ctor "MAVLink_statustext_message"
    ["severity"; "text"]
    [("severity", "severity"); ("text", "text")]
    [("severity", None); ("text", None)];
  (* lines 7245-7279 *)
  Ctor "MAVLink_debug_message"
    ["time_boot_ms"; "ind"; "value"]
    [("time_boot_ms", "time_boot_ms"); ("ind", "ind"); ("value", "value")]
    [("time_boot_ms", None); ("value", None); ("ind", None)];
  (* lines 7281-7313 *)
  Ctor "MAVLink_altimeter_sensor_message"
    ["time_boot_ms"; "Altitude_front"; "Altitude_back"]
    [("time_boot_ms", "time_boot_ms"); ("Altitude_front", "Altitude_front"); ("Altitude_back", "Altitude_back")]
    [("time_boot_ms", None); ("Altitude_front", None); ("Altitude_back", None)];
  (* lines 7315-7350 *)
  Ctor "MAVLink_scaled_svs_message"
    ["time_boot_ms"; "Speed_of_Sound"; "Depth"; "Temperature"; "Status"; "Reserved"]
    [("time_boot_ms", "time_boot_ms"); ("Speed_of_Sound", "Speed_of_Sound"); ("Depth", "Depth"); ("Temperature", "Temperature"); ("Status", "Status"); ("Reserved", "Reserved")]
    [("time_boot_ms", None); ("Speed_of_Sound", None); ("Depth", None); ("Reserved", None); ("Temperature", None); ("Status", None)];
  (* lines 7352-7387 *)
  Ctor "MAVLink_ctd_status_message"
    ["time_boot_ms"; "Conductivity"; "Depth"; "Temperature"; "Status"; "Reserved"]
    [("time_boot_ms", "time_boot_ms"); ("Conductivity", "Conductivity"); ("Depth", "Depth"); ("Temperature", "Temperature"); ("Status", "Status"); ("Reserved", "Reserved")]
    [("time_boot_ms", None); ("Conductivity", None); ("Depth", None); ("Reserved", None); ("Temperature", None); ("Status", None)];
  (* lines 7389-7428 *)
  Ctor "MAVLink_motor_status_message"
    ["time_boot_ms"; "motor_num"; "rpm"; "voltage"; "current"; "Status"; "Fault"; "temperature"; "pressure"]
    [("time_boot_ms", "time_boot_ms"); ("motor_num", "motor_num"); ("rpm", "rpm"); ("voltage", "voltage"); ("current", "current"); ("Status", "Status"); ("Fault", "Fault"); ("temperature", "temperature"); ("pressure", "pressure")]
    [("time_boot_ms", None); ("pressure", None); ("rpm", None); ("voltage", None); ("current", None); ("temperature", None); ("motor_num", None); ("Status", None); ("Fault", None)];
  (* lines 7430-7465 *)
  Ctor "MAVLink_rf_modem_status_message"
    ["time_boot_ms"; "Bit_Rate"; "Status"; "current"; "Reserved"; "Reserved2"]
    [("time_boot_ms", "time_boot_ms"); ("Bit_Rate", "Bit_Rate"); ("Status", "Status"); ("current", "current"); ("Reserved", "Reserved"); ("Reserved2", "Reserved2")]
    [("time_boot_ms", None); ("Bit_Rate", None); ("Reserved", None); ("Reserved2", None); ("current", None); ("Status", None)];
  (* lines 7467-7499 *)
  Ctor "MAVLink_system_onoff_req_message"
    ["time_boot_ms"; "status"]
    [("time_boot_ms", "time_boot_ms"); ("status", "status")]
    [("time_boot_ms", None); ("status", None)];
  (* lines 7501-7533 *)
  Ctor "MAVLink_system_onoff_status_message"
    ["time_boot_ms"; "status"]
    [("time_boot_ms", "time_boot_ms"); ("status", "status")]
    [("time_boot_ms", None); ("status", None)];
  (* lines 7535-7570 *)
  Ctor "MAVLink_chamber_status_message"
    ["time_boot_ms"; "chamber_num"; "pressure"; "temperature"; "humidity"]
    [("time_boot_ms", "time_boot_ms"); ("chamber_num", "chamber_num"); ("pressure", "pressure"); ("temperature", "temperature"); ("humidity", "humidity")]
    [("time_boot_ms", None); ("temperature", None); ("humidity", None); ("chamber_num", None); ("pressure", None)];
  (* lines 7572-7612 *)
  Ctor "MAVLink_task_status_message"
    ["taskID"; "task_status"; "time"; "task_time"; "task_count"; "parse_success_count"; "parse_error_count"; "interupt_count"; "rst_count"; "err1"; "err2"]
    [("taskID", "taskID"); ("task_status", "task_status"); ("time", "time"); ("task_time", "task_time"); ("task_count", "task_count"); ("parse_success_count", "parse_success_count"); ("parse_error_count", "parse_error_count"); ("interupt_count", "interupt_count"); ("rst_count", "rst_count"); ("err1", "err1"); ("err2", "err2")]
    [("time", None); ("task_time", None); ("task_count", None); ("parse_success_count", None); ("parse_error_count", None); ("interupt_count", None); ("rst_count", None); ("taskID", None); ("task_status", None); ("err1", None); ("err2", None)];
  (* lines 7614-7671 *)
  Ctor "MAVLink_param_est_test_message"
    ["time_boot_ms_imu"; "time_boot_ms_io"; "gyro_x"; "gyro_y"; "gyro_z"; "gyro_dot_x"; "gyro_dot_y"; "gyro_dot_z"; "accel_x"; "accel_y"; "accel_z"; "accel_no_g_x"; "accel_no_g_y"; "accel_no_g_z"; "dvl_x"; "dvl_y"; "dvl_z"; "roll"; "pitch"; "yaw"; "motor1_rpm"; "motor2_rpm"; "motor3_rpm"; "motor4_rpm"; "motor5_rpm"; "motor6_rpm"; "motor7_rpm"]
    [("time_boot_ms_imu", "time_boot_ms_imu"); ("time_boot_ms_io", "time_boot_ms_io"); ("gyro_x", "gyro_x"); ("gyro_y", "gyro_y"); ("gyro_z", "gyro_z"); ("gyro_dot_x", "gyro_dot_x"); ("gyro_dot_y", "gyro_dot_y"); ("gyro_dot_z", "gyro_dot_z"); ("accel_x", "accel_x"); ("accel_y", "accel_y"); ("accel_z", "accel_z"); ("accel_no_g_x", "accel_no_g_x"); ("accel_no_g_y", "accel_no_g_y"); ("accel_no_g_z", "accel_no_g_z"); ("dvl_x", "dvl_x"); ("dvl_y", "dvl_y"); ("dvl_z", "dvl_z"); ("roll", "roll"); ("pitch", "pitch"); ("yaw", "yaw"); ("motor1_rpm", "motor1_rpm"); ("motor2_rpm", "motor2_rpm"); ("motor3_rpm", "motor3_rpm"); ("motor4_rpm", "motor4_rpm"); ("motor5_rpm", "motor5_rpm"); ("motor6_rpm", "motor6_rpm"); ("motor7_rpm", "motor7_rpm")]
    [("time_boot_ms_imu", None); ("time_boot_ms_io", None); ("gyro_x", None); ("gyro_y", None); ("gyro_z", None); ("gyro_dot_x", None); ("gyro_dot_y", None); ("gyro_dot_z", None); ("accel_x", None); ("accel_y", None); ("accel_z", None); ("accel_no_g_x", None); ("accel_no_g_y", None); ("accel_no_g_z", None); ("dvl_x", None); ("dvl_y", None); ("dvl_z", None); ("roll", None); ("pitch", None); ("yaw", None); ("motor1_rpm", None); ("motor2_rpm", None); ("motor3_rpm", None); ("motor4_rpm", None); ("motor5_rpm", None); ("motor6_rpm", None); ("motor7_rpm", None)];
  (* lines 7673-7705 *)
  Ctor "MAVLink_motor_cmd_message"
    ["mode"; "speed"]
    [("mode", "mode"); ("speed", "speed")]
    [("speed", Some 0); ("speed", Some 1); ("speed", Some 2); ("speed", Some 3); ("speed", Some 4); ("speed", Some 5); ("speed", Some 6); ("speed", Some 7); ("speed", Some 8); ("speed", Some 9); ("mode", None)];
  (* lines 7707-7743 *)
  Ctor "MAVLink_bathymetry_message"
    ["time_usec"; "depth"; "altitude"; "distance"; "range_from_body"; "seabed_phi"; "seabed_theta"]
    [("time_usec", "time_usec"); ("depth", "depth"); ("altitude", "altitude"); ("distance", "distance"); ("range_from_body", "range_from_body"); ("seabed_phi", "seabed_phi"); ("seabed_theta", "seabed_theta")]
    [("time_usec", None); ("depth", None); ("altitude", None); ("distance", None); ("range_from_body", None); ("seabed_phi", None); ("seabed_theta", None)];
  (* lines 7745-7783 *)
  Ctor "MAVLink_power_consumption_motors_message"
    ["time_boot_ms"; "current_ml"; "current_mr"; "current_p"; "current_yb"; "current_yf"; "current_wl"; "current_wr"; "battery_voltage"]
    [("time_boot_ms", "time_boot_ms"); ("current_ml", "current_ml"); ("current_mr", "current_mr"); ("current_p", "current_p"); ("current_yb", "current_yb"); ("current_yf", "current_yf"); ("current_wl", "current_wl"); ("current_wr", "current_wr"); ("battery_voltage", "battery_voltage")]
    [("time_boot_ms", None); ("current_ml", None); ("current_mr", None); ("current_p", None); ("current_yb", None); ("current_yf", None); ("current_wl", None); ("current_wr", None); ("battery_voltage", None)];
  (* lines 7785-7823 *)
  Ctor "MAVLink_power_consumption_2_message"
    ["time_boot_ms"; "current_1"; "voltage_1"; "current_2"; "voltage_2"; "current_3"; "voltage_3"; "current_4"; "voltage_4"]
    [("time_boot_ms", "time_boot_ms"); ("current_1", "current_1"); ("voltage_1", "voltage_1"); ("current_2", "current_2"); ("voltage_2", "voltage_2"); ("current_3", "current_3"); ("voltage_3", "voltage_3"); ("current_4", "current_4"); ("voltage_4", "voltage_4")]
    [("time_boot_ms", None); ("current_1", None); ("voltage_1", None); ("current_2", None); ("voltage_2", None); ("current_3", None); ("voltage_3", None); ("current_4", None); ("voltage_4", None)];
  (* lines 7825-7860 *)
  Ctor "MAVLink_system_status_2_message"
    ["time_boot_ms"; "hc_mode"; "hc_system_status"; "hc_err_id"; "debug1"; "debug2"]
    [("time_boot_ms", "time_boot_ms"); ("hc_mode", "hc_mode"); ("hc_system_status", "hc_system_status"); ("hc_err_id", "hc_err_id"); ("debug1", "debug1"); ("debug2", "debug2")]
    [("time_boot_ms", None); ("hc_err_id", None); ("debug1", None); ("debug2", None); ("hc_mode", None); ("hc_system_status", None)];
  (* lines 7862-7899 *)
  Ctor "MAVLink_gps_timing_message"
    ["time_boot_ms"; "tow_ms"; "tow_ns"; "accuracy"; "local_time_s"; "gps_fix"; "rtc_month"; "rtc_day"]
    [("time_boot_ms", "time_boot_ms"); ("tow_ms", "tow_ms"); ("tow_ns", "tow_ns"); ("accuracy", "accuracy"); ("local_time_s", "local_time_s"); ("gps_fix", "gps_fix"); ("rtc_month", "rtc_month"); ("rtc_day", "rtc_day")]
    [("time_boot_ms", None); ("tow_ms", None); ("tow_ns", None); ("accuracy", None); ("local_time_s", None); ("gps_fix", None); ("rtc_month", None); ("rtc_day", None)];
  (* lines 7901-7933 *)
  Ctor "MAVLink_magnetometer_calibration_message"
    ["time_boot_ms"; "bias"; "scaling_matrix"]
    [("time_boot_ms", "time_boot_ms"); ("bias", "bias"); ("scaling_matrix", "scaling_matrix")]
    [("time_boot_ms", None); ("bias", Some 0); ("bias", Some 1); ("bias", Some 2); ("scaling_matrix", Some 0); ("scaling_matrix", Some 1); ("scaling_matrix", Some 2); ("scaling_matrix", Some 3); ("scaling_matrix", Some 4); ("scaling_matrix", Some 5); ("scaling_matrix", Some 6); ("scaling_matrix", Some 7); ("scaling_matrix", Some 8)];
  (* lines 7935-7975 *)
  Ctor "MAVLink_algorithm_status_message"
    ["time_boot_ms"; "rate"; "nav_type"; "external_heading"; "calibrated"; "reset"; "hc_maneuver"; "hc_maneuver2"; "velocity_inov"; "attitude_cov"; "pos_cov"]
    [("time_boot_ms", "time_boot_ms"); ("rate", "rate"); ("nav_type", "nav_type"); ("external_heading", "external_heading"); ("calibrated", "calibrated"); ("reset", "reset"); ("hc_maneuver", "hc_maneuver"); ("hc_maneuver2", "hc_maneuver2"); ("velocity_inov", "velocity_inov"); ("attitude_cov", "attitude_cov"); ("pos_cov", "pos_cov")]
    [("time_boot_ms", None); ("nav_type", None); ("velocity_inov", None); ("attitude_cov", None); ("pos_cov", None); ("rate", None); ("external_heading", None); ("calibrated", None); ("reset", None); ("hc_maneuver", None); ("hc_maneuver2", None)];
  (* lines 7977-8021 *)
  Ctor "MAVLink_dvl_bt_raw_message"
    ["time_boot_ms"; "v1"; "v2"; "v3"; "v_err"; "wm_v1"; "wm_v2"; "wm_v3"; "wm_v4"; "range_1"; "range_2"; "range_3"; "range_4"; "good_beams_precentege"; "ensamble_number"]
    [("time_boot_ms", "time_boot_ms"); ("v1", "v1"); ("v2", "v2"); ("v3", "v3"); ("v_err", "v_err"); ("wm_v1", "wm_v1"); ("wm_v2", "wm_v2"); ("wm_v3", "wm_v3"); ("wm_v4", "wm_v4"); ("range_1", "range_1"); ("range_2", "range_2"); ("range_3", "range_3"); ("range_4", "range_4"); ("good_beams_precentege", "good_beams_precentege"); ("ensamble_number", "ensamble_number")]
    [("time_boot_ms", None); ("range_1", None); ("range_2", None); ("range_3", None); ("range_4", None); ("ensamble_number", None); ("v1", None); ("v2", None); ("v3", None); ("v_err", None); ("wm_v1", None); ("wm_v2", None); ("wm_v3", None); ("wm_v4", None); ("good_beams_precentege", None)];
  (* lines 8023-8058 *)
  Ctor "MAVLink_dvl_bt_scaled_message"
    ["time_boot_ms"; "v1"; "v2"; "v3"; "altitude"; "distance"]
    [("time_boot_ms", "time_boot_ms"); ("v1", "v1"); ("v2", "v2"); ("v3", "v3"); ("altitude", "altitude"); ("distance", "distance")]
    [("time_boot_ms", None); ("v1", None); ("v2", None); ("v3", None); ("altitude", None); ("distance", None)];
  (* lines 8060-8114 *)
  Ctor "MAVLink_dvl_bt_highres_message"
    ["time_boot_ms"; "V1"; "V2"; "V3"; "V4"; "Bt_Dmg_1"; "Bt_Dmg_2"; "Bt_Dmg_3"; "Bt_Dmg_4"; "Ref_Frame"; "Wm_V1"; "Wm_V2"; "Wm_V3"; "Wm_V4"; "Svs"; "Slant_range"; "Axes_delta_range"; "Vertical_range"; "Percent_good_4bm"; "Percent_good_12bm"; "Percent_good_34bm"; "Bm_1_raw_range"; "Bm_2_raw_range"; "Bm_3_raw_range"; "Bm_4_raw_range"]
    [("time_boot_ms", "time_boot_ms"); ("V1", "V1"); ("V2", "V2"); ("V3", "V3"); ("V4", "V4"); ("Bt_Dmg_1", "Bt_Dmg_1"); ("Bt_Dmg_2", "Bt_Dmg_2"); ("Bt_Dmg_3", "Bt_Dmg_3"); ("Bt_Dmg_4", "Bt_Dmg_4"); ("Ref_Frame", "Ref_Frame"); ("Wm_V1", "Wm_V1"); ("Wm_V2", "Wm_V2"); ("Wm_V3", "Wm_V3"); ("Wm_V4", "Wm_V4"); ("Svs", "Svs"); ("Slant_range", "Slant_range"); ("Axes_delta_range", "Axes_delta_range"); ("Vertical_range", "Vertical_range"); ("Percent_good_4bm", "Percent_good_4bm"); ("Percent_good_12bm", "Percent_good_12bm"); ("Percent_good_34bm", "Percent_good_34bm"); ("Bm_1_raw_range", "Bm_1_raw_range"); ("Bm_2_raw_range", "Bm_2_raw_range"); ("Bm_3_raw_range", "Bm_3_raw_range"); ("Bm_4_raw_range", "Bm_4_raw_range")]
    [("time_boot_ms", None); ("V1", None); ("V2", None); ("V3", None); ("V4", None); ("Bt_Dmg_1", None); ("Bt_Dmg_2", None); ("Bt_Dmg_3", None); ("Bt_Dmg_4", None); ("Wm_V1", None); ("Wm_V2", None); ("Wm_V3", None); ("Wm_V4", None); ("Svs", None); ("Slant_range", None); ("Axes_delta_range", None); ("Vertical_range", None); ("Bm_1_raw_range", None); ("Bm_2_raw_range", None); ("Bm_3_raw_range", None); ("Bm_4_raw_range", None); ("Ref_Frame", None); ("Percent_good_4bm", None); ("Percent_good_12bm", None); ("Percent_good_34bm", None)];
  (* lines 8116-8164 *)
  Ctor "MAVLink_dvl_wp_raw_message"
    ["time_boot_ms"; "Depth_Cell_ID"; "v1"; "v2"; "v3"; "v_err"; "Depth_Correlation_1"; "Depth_Correlation_2"; "Depth_Correlation_3"; "Depth_Correlation_4"; "Depth_Echo_Intensity_1"; "Depth_Echo_Intensity_2"; "Depth_Echo_Intensity_3"; "Depth_Echo_Intensity_4"; "Percent_Good_1"; "Percent_Good_2"; "Percent_Good_3"; "Percent_Good_4"; "status"]
    [("time_boot_ms", "time_boot_ms"); ("Depth_Cell_ID", "Depth_Cell_ID"); ("v1", "v1"); ("v2", "v2"); ("v3", "v3"); ("v_err", "v_err"); ("Depth_Correlation_1", "Depth_Correlation_1"); ("Depth_Correlation_2", "Depth_Correlation_2"); ("Depth_Correlation_3", "Depth_Correlation_3"); ("Depth_Correlation_4", "Depth_Correlation_4"); ("Depth_Echo_Intensity_1", "Depth_Echo_Intensity_1"); ("Depth_Echo_Intensity_2", "Depth_Echo_Intensity_2"); ("Depth_Echo_Intensity_3", "Depth_Echo_Intensity_3"); ("Depth_Echo_Intensity_4", "Depth_Echo_Intensity_4"); ("Percent_Good_1", "Percent_Good_1"); ("Percent_Good_2", "Percent_Good_2"); ("Percent_Good_3", "Percent_Good_3"); ("Percent_Good_4", "Percent_Good_4"); ("status", "status")]
    [("time_boot_ms", None); ("v1", None); ("v2", None); ("v3", None); ("v_err", None); ("Depth_Cell_ID", None); ("Depth_Correlation_1", None); ("Depth_Correlation_2", None); ("Depth_Correlation_3", None); ("Depth_Correlation_4", None); ("Depth_Echo_Intensity_1", None); ("Depth_Echo_Intensity_2", None); ("Depth_Echo_Intensity_3", None); ("Depth_Echo_Intensity_4", None); ("Percent_Good_1", None); ("Percent_Good_2", None); ("Percent_Good_3", None); ("Percent_Good_4", None); ("status", None)];
  (* lines 8166-8204 *)
  Ctor "MAVLink_time_date_info_message"
    ["time_boot_ms"; "year"; "month"; "day"; "hours"; "minutes"; "seconds"; "millisec"]
    [("time_boot_ms", "time_boot_ms"); ("year", "year"); ("month", "month"); ("day", "day"); ("hours", "hours"); ("minutes", "minutes"); ("seconds", "seconds"); ("millisec", "millisec")]
    [("time_boot_ms", None); ("year", None); ("millisec", None); ("month", None); ("day", None); ("hours", None); ("minutes", None); ("seconds", None)];
  (* lines 8206-8238 *)
  Ctor "MAVLink_pinger_data_message"
    ["time_boot_ms"; "range"; "azimuth"]
    [("time_boot_ms", "time_boot_ms"); ("range", "range"); ("azimuth", "azimuth")]
    [("time_boot_ms", None); ("range", None); ("azimuth", None)];
  (* lines 8240-8275 *)
  Ctor "MAVLink_hc_acoustic_pos_message"
    ["time_boot_ms"; "range"; "azimuth"; "lat_1"; "lon_1"; "tow_1"]
    [("time_boot_ms", "time_boot_ms"); ("range", "range"); ("azimuth", "azimuth"); ("lat_1", "lat_1"); ("lon_1", "lon_1"); ("tow_1", "tow_1")]
    [("time_boot_ms", None); ("range", None); ("azimuth", None); ("lat_1", None); ("lon_1", None); ("tow_1", None)];
  (* lines 8277-8313 *)
  Ctor "MAVLink_debug_msg_1_message"
    ["time_boot_ms"; "debug_1_1"; "debug_1_2"; "debug_1_3"; "debug_1_4"; "debug_1_5"; "debug_1_6"]
    [("time_boot_ms", "time_boot_ms"); ("debug_1_1", "debug_1_1"); ("debug_1_2", "debug_1_2"); ("debug_1_3", "debug_1_3"); ("debug_1_4", "debug_1_4"); ("debug_1_5", "debug_1_5"); ("debug_1_6", "debug_1_6")]
    [("time_boot_ms", None); ("debug_1_1", None); ("debug_1_2", None); ("debug_1_3", None); ("debug_1_4", None); ("debug_1_5", None); ("debug_1_6", None)];
  (* lines 8315-8353 *)
  Ctor "MAVLink_hc_acoustic_channel_message"
    ["time_boot_ms"; "mpd"; "psnr"; "agc"; "spd"; "crc_pass"; "ccerr"; "source"; "destination"]
    [("time_boot_ms", "time_boot_ms"); ("mpd", "mpd"); ("psnr", "psnr"); ("agc", "agc"); ("spd", "spd"); ("crc_pass", "crc_pass"); ("ccerr", "ccerr"); ("source", "source"); ("destination", "destination")]
    [("time_boot_ms", None); ("mpd", None); ("psnr", None); ("agc", None); ("spd", None); ("crc_pass", None); ("ccerr", None); ("source", None); ("destination", None)];
  (* lines 8355-8389 *)
  Ctor "MAVLink_acoustic_transmission_log_message"
    ["time_boot_ms"; "tow_ms"; "count"; "slot_num"; "data"]
    [("time_boot_ms", "time_boot_ms"); ("tow_ms", "tow_ms"); ("count", "count"); ("slot_num", "slot_num"); ("data", "data")]
    [("time_boot_ms", None); ("tow_ms", None); ("count", None); ("slot_num", None); ("data", Some 0); ("data", Some 1); ("data", Some 2); ("data", Some 3); ("data", Some 4); ("data", Some 5); ("data", Some 6); ("data", Some 7); ("data", Some 8); ("data", Some 9); ("data", Some 10); ("data", Some 11); ("data", Some 12); ("data", Some 13); ("data", Some 14); ("data", Some 15); ("data", Some 16); ("data", Some 17); ("data", Some 18); ("data", Some 19); ("data", Some 20); ("data", Some 21); ("data", Some 22); ("data", Some 23); ("data", Some 24); ("data", Some 25); ("data", Some 26); ("data", Some 27); ("data", Some 28); ("data", Some 29); ("data", Some 30); ("data", Some 31); ("data", Some 32); ("data", Some 33); ("data", Some 34); ("data", Some 35); ("data", Some 36); ("data", Some 37); ("data", Some 38); ("data", Some 39); ("data", Some 40); ("data", Some 41); ("data", Some 42); ("data", Some 43); ("data", Some 44); ("data", Some 45); ("data", Some 46); ("data", Some 47); ("data", Some 48); ("data", Some 49); ("data", Some 50); ("data", Some 51); ("data", Some 52); ("data", Some 53); ("data", Some 54); ("data", Some 55); ("data", Some 56); ("data", Some 57); ("data", Some 58); ("data", Some 59); ("data", Some 60); ("data", Some 61); ("data", Some 62); ("data", Some 63); ("data", Some 64); ("data", Some 65); ("data", Some 66); ("data", Some 67); ("data", Some 68); ("data", Some 69); ("data", Some 70); ("data", Some 71); ("data", Some 72); ("data", Some 73); ("data", Some 74); ("data", Some 75); ("data", Some 76); ("data", Some 77); ("data", Some 78); ("data", Some 79); ("data", Some 80); ("data", Some 81); ("data", Some 82); ("data", Some 83); ("data", Some 84); ("data", Some 85); ("data", Some 86); ("data", Some 87); ("data", Some 88); ("data", Some 89); ("data", Some 90); ("data", Some 91); ("data", Some 92); ("data", Some 93); ("data", Some 94); ("data", Some 95); ("data", Some 96); ("data", Some 97); ("data", Some 98); ("data", Some 99); ("data", Some 100); ("data", Some 101); ("data", Some 102); ("data", Some 103); ("data", Some 104); ("data", Some 105); ("data", Some 106); ("data", Some 107); ("data", Some 108); ("data", Some 109); ("data", Some 110); ("data", Some 111); ("data", Some 112); ("data", Some 113); ("data", Some 114); ("data", Some 115); ("data", Some 116); ("data", Some 117); ("data", Some 118); ("data", Some 119); ("data", Some 120); ("data", Some 121); ("data", Some 122); ("data", Some 123); ("data", Some 124); ("data", Some 125); ("data", Some 126); ("data", Some 127); ("data", Some 128); ("data", Some 129); ("data", Some 130); ("data", Some 131); ("data", Some 132); ("data", Some 133); ("data", Some 134); ("data", Some 135); ("data", Some 136); ("data", Some 137); ("data", Some 138); ("data", Some 139); ("data", Some 140); ("data", Some 141); ("data", Some 142); ("data", Some 143); ("data", Some 144); ("data", Some 145); ("data", Some 146); ("data", Some 147); ("data", Some 148); ("data", Some 149); ("data", Some 150); ("data", Some 151); ("data", Some 152); ("data", Some 153); ("data", Some 154); ("data", Some 155); ("data", Some 156); ("data", Some 157); ("data", Some 158); ("data", Some 159); ("data", Some 160); ("data", Some 161); ("data", Some 162); ("data", Some 163); ("data", Some 164); ("data", Some 165); ("data", Some 166); ("data", Some 167); ("data", Some 168); ("data", Some 169); ("data", Some 170); ("data", Some 171); ("data", Some 172); ("data", Some 173); ("data", Some 174); ("data", Some 175); ("data", Some 176); ("data", Some 177); ("data", Some 178); ("data", Some 179); ("data", Some 180); ("data", Some 181); ("data", Some 182); ("data", Some 183); ("data", Some 184); ("data", Some 185); ("data", Some 186); ("data", Some 187); ("data", Some 188); ("data", Some 189); ("data", Some 190); ("data", Some 191); ("data", Some 192); ("data", Some 193); ("data", Some 194); ("data", Some 195); ("data", Some 196); ("data", Some 197); ("data", Some 198); ("data", Some 199)]
].

(** The *_encode methods; mavlink_utils/HC_dialect.py:8956-14254. *)
Definition encodes : list method :=
[
  Method "heartbeat_encode" ["type"; "autopilot"; "base_mode"; "custom_mode"; "system_status"; "mavlink_version"] [3]%Z "MAVLink_heartbeat_message" ["type"; "autopilot"; "base_mode"; "custom_mode"; "system_status"; "mavlink_version"];
  Method "sys_status_encode" ["onboard_control_sensors_present"; "onboard_control_sensors_enabled"; "onboard_control_sensors_health"; "load"; "voltage_battery"; "current_battery"; "battery_remaining"; "drop_rate_comm"; "errors_comm"; "errors_count1"; "errors_count2"; "errors_count3"; "errors_count4"] []%Z "MAVLink_sys_status_message" ["onboard_control_sensors_present"; "onboard_control_sensors_enabled"; "onboard_control_sensors_health"; "load"; "voltage_battery"; "current_battery"; "battery_remaining"; "drop_rate_comm"; "errors_comm"; "errors_count1"; "errors_count2"; "errors_count3"; "errors_count4"];
  Method "system_time_encode" ["time_unix_usec"; "time_boot_ms"] []%Z "MAVLink_system_time_message" ["time_unix_usec"; "time_boot_ms"];
  Method "ping_encode" ["time_usec"; "seq"; "target_system"; "target_component"] []%Z "MAVLink_ping_message" ["time_usec"; "seq"; "target_system"; "target_component"];
  Method "change_operator_control_encode" ["target_system"; "control_request"; "version"; "passkey"] []%Z "MAVLink_change_operator_control_message" ["target_system"; "control_request"; "version"; "passkey"];
  Method "change_operator_control_ack_encode" ["gcs_system_id"; "control_request"; "ack"] []%Z "MAVLink_change_operator_control_ack_message" ["gcs_system_id"; "control_request"; "ack"];
  Method "auth_key_encode" ["key"] []%Z "MAVLink_auth_key_message" ["key"];
  Method "set_mode_encode" ["target_system"; "base_mode"; "custom_mode"] []%Z "MAVLink_set_mode_message" ["target_system"; "base_mode"; "custom_mode"];
  Method "param_request_read_encode" ["target_system"; "target_component"; "param_id"; "param_index"] []%Z "MAVLink_param_request_read_message" ["target_system"; "target_component"; "param_id"; "param_index"];
  Method "param_request_list_encode" ["target_system"; "target_component"] []%Z "MAVLink_param_request_list_message" ["target_system"; "target_component"];
  Method "param_value_encode" ["param_id"; "param_value"; "param_type"; "param_count"; "param_index"] []%Z "MAVLink_param_value_message" ["param_id"; "param_value"; "param_type"; "param_count"; "param_index"];
  Method "param_set_encode" ["target_system"; "target_component"; "param_id"; "param_value"; "param_type"] []%Z "MAVLink_param_set_message" ["target_system"; "target_component"; "param_id"; "param_value"; "param_type"];
  Method "gps_raw_int_encode" ["time_usec"; "fix_type"; "lat"; "lon"; "alt"; "eph"; "epv"; "vel"; "cog"; "satellites_visible"] []%Z "MAVLink_gps_raw_int_message" ["time_usec"; "fix_type"; "lat"; "lon"; "alt"; "eph"; "epv"; "vel"; "cog"; "satellites_visible"];
  Method "gps_status_encode" ["satellites_visible"; "satellite_prn"; "satellite_used"; "satellite_elevation"; "satellite_azimuth"; "satellite_snr"] []%Z "MAVLink_gps_status_message" ["satellites_visible"; "satellite_prn"; "satellite_used"; "satellite_elevation"; "satellite_azimuth"; "satellite_snr"];
  Method "scaled_imu_encode" ["time_boot_ms"; "xacc"; "yacc"; "zacc"; "xgyro"; "ygyro"; "zgyro"; "xmag"; "ymag"; "zmag"] []%Z "MAVLink_scaled_imu_message" ["time_boot_ms"; "xacc"; "yacc"; "zacc"; "xgyro"; "ygyro"; "zgyro"; "xmag"; "ymag"; "zmag"];
  Method "raw_imu_encode" ["time_usec"; "xacc"; "yacc"; "zacc"; "xgyro"; "ygyro"; "zgyro"; "xmag"; "ymag"; "zmag"] []%Z "MAVLink_raw_imu_message" ["time_usec"; "xacc"; "yacc"; "zacc"; "xgyro"; "ygyro"; "zgyro"; "xmag"; "ymag"; "zmag"];
  Method "raw_pressure_encode" ["time_usec"; "press_abs"; "press_diff1"; "press_diff2"; "temperature"] []%Z "MAVLink_raw_pressure_message" ["time_usec"; "press_abs"; "press_diff1"; "press_diff2"; "temperature"];
  Method "scaled_pressure_encode" ["time_boot_ms"; "press_abs"; "press_diff"; "temperature"] []%Z "MAVLink_scaled_pressure_message" ["time_boot_ms"; "press_abs"; "press_diff"; "temperature"];
  Method "attitude_encode" ["time_boot_ms"; "roll"; "pitch"; "yaw"; "rollspeed"; "pitchspeed"; "yawspeed"] []%Z "MAVLink_attitude_message" ["time_boot_ms"; "roll"; "pitch"; "yaw"; "rollspeed"; "pitchspeed"; "yawspeed"];
  Method "attitude_quaternion_encode" ["time_boot_ms"; "q1"; "q2"; "q3"; "q4"; "rollspeed"; "pitchspeed"; "yawspeed"] []%Z "MAVLink_attitude_quaternion_message" ["time_boot_ms"; "q1"; "q2"; "q3"; "q4"; "rollspeed"; "pitchspeed"; "yawspeed"];
  Method "local_position_ned_encode" ["time_boot_ms"; "x"; "y"; "z"; "vx"; "vy"; "vz"] []%Z "MAVLink_local_position_ned_message" ["time_boot_ms"; "x"; "y"; "z"; "vx"; "vy"; "vz"];
  Method "global_position_int_encode" ["time_boot_ms"; "lat"; "lon"; "alt"; "relative_alt"; "bottom_clearnce"; "depth"; "vx"; "vy"; "vz"; "hdg"] []%Z "MAVLink_global_position_int_message" ["time_boot_ms"; "lat"; "lon"; "alt"; "relative_alt"; "bottom_clearnce"; "depth"; "vx"; "vy"; "vz"; "hdg"];
  Method "rc_channels_scaled_encode" ["time_boot_ms"; "port"; "chan1_scaled"; "chan2_scaled"; "chan3_scaled"; "chan4_scaled"; "chan5_scaled"; "chan6_scaled"; "chan7_scaled"; "chan8_scaled"; "rssi"] []%Z "MAVLink_rc_channels_scaled_message" ["time_boot_ms"; "port"; "chan1_scaled"; "chan2_scaled"; "chan3_scaled"; "chan4_scaled"; "chan5_scaled"; "chan6_scaled"; "chan7_scaled"; "chan8_scaled"; "rssi"];
  Method "rc_channels_raw_encode" ["time_boot_ms"; "port"; "chan1_raw"; "chan2_raw"; "chan3_raw"; "chan4_raw"; "chan5_raw"; "chan6_raw"; "chan7_raw"; "chan8_raw"; "rssi"] []%Z "MAVLink_rc_channels_raw_message" ["time_boot_ms"; "port"; "chan1_raw"; "chan2_raw"; "chan3_raw"; "chan4_raw"; "chan5_raw"; "chan6_raw"; "chan7_raw"; "chan8_raw"; "rssi"];
  Method "servo_output_raw_encode" ["time_usec"; "port"; "servo1_raw"; "servo2_raw"; "servo3_raw"; "servo4_raw"; "servo5_raw"; "servo6_raw"; "servo7_raw"; "servo8_raw"] []%Z "MAVLink_servo_output_raw_message" ["time_usec"; "port"; "servo1_raw"; "servo2_raw"; "servo3_raw"; "servo4_raw"; "servo5_raw"; "servo6_raw"; "servo7_raw"; "servo8_raw"];
  Method "mission_request_partial_list_encode" ["target_system"; "target_component"; "start_index"; "end_index"] []%Z "MAVLink_mission_request_partial_list_message" ["target_system"; "target_component"; "start_index"; "end_index"];
  Method "mission_write_partial_list_encode" ["target_system"; "target_component"; "start_index"; "end_index"] []%Z "MAVLink_mission_write_partial_list_message" ["target_system"; "target_component"; "start_index"; "end_index"];
  Method "mission_item_encode" ["target_system"; "target_component"; "seq"; "frame"; "command"; "current"; "autocontinue"; "param1"; "param2"; "param3"; "param4"; "x"; "y"; "z"] []%Z "MAVLink_mission_item_message" ["target_system"; "target_component"; "seq"; "frame"; "command"; "current"; "autocontinue"; "param1"; "param2"; "param3"; "param4"; "x"; "y"; "z"];
  Method "mission_request_encode" ["target_system"; "target_component"; "seq"] []%Z "MAVLink_mission_request_message" ["target_system"; "target_component"; "seq"];
  Method "mission_set_current_encode" ["target_system"; "target_component"; "seq"] []%Z "MAVLink_mission_set_current_message" ["target_system"; "target_component"; "seq"];
  Method "mission_current_encode" ["seq"] []%Z "MAVLink_mission_current_message" ["seq"];
  Method "mission_request_list_encode" ["target_system"; "target_component"] []%Z "MAVLink_mission_request_list_message" ["target_system"; "target_component"];
  Method "mission_count_encode" ["target_system"; "target_component"; "count"] []%Z "MAVLink_mission_count_message" ["target_system"; "target_component"; "count"];
  Method "mission_clear_all_encode" ["target_system"; "target_component"] []%Z "MAVLink_mission_clear_all_message" ["target_system"; "target_component"];
  Method "mission_item_reached_encode" ["seq"] []%Z "MAVLink_mission_item_reached_message" ["seq"];
  Method "mission_ack_encode" ["target_system"; "target_component"; "type"] []%Z "MAVLink_mission_ack_message" ["target_system"; "target_component"; "type"];
  Method "set_gps_global_origin_encode" ["target_system"; "latitude"; "longitude"; "altitude"] []%Z "MAVLink_set_gps_global_origin_message" ["target_system"; "latitude"; "longitude"; "altitude"];
  Method "gps_global_origin_encode" ["latitude"; "longitude"; "altitude"] []%Z "MAVLink_gps_global_origin_message" ["latitude"; "longitude"; "altitude"];
  Method "param_map_rc_encode" ["target_system"; "target_component"; "param_id"; "param_index"; "parameter_rc_channel_index"; "param_value0"; "scale"; "param_value_min"; "param_value_max"] []%Z "MAVLink_param_map_rc_message" ["target_system"; "target_component"; "param_id"; "param_index"; "parameter_rc_channel_index"; "param_value0"; "scale"; "param_value_min"; "param_value_max"];
  Method "safety_set_allowed_area_encode" ["target_system"; "target_component"; "frame"; "p1x"; "p1y"; "p1z"; "p2x"; "p2y"; "p2z"] []%Z "MAVLink_safety_set_allowed_area_message" ["target_system"; "target_component"; "frame"; "p1x"; "p1y"; "p1z"; "p2x"; "p2y"; "p2z"];
  Method "safety_allowed_area_encode" ["frame"; "p1x"; "p1y"; "p1z"; "p2x"; "p2y"; "p2z"] []%Z "MAVLink_safety_allowed_area_message" ["frame"; "p1x"; "p1y"; "p1z"; "p2x"; "p2y"; "p2z"];
  Method "attitude_quaternion_cov_encode" ["time_boot_ms"; "q"; "rollspeed"; "pitchspeed"; "yawspeed"; "covariance"] []%Z "MAVLink_attitude_quaternion_cov_message" ["time_boot_ms"; "q"; "rollspeed"; "pitchspeed"; "yawspeed"; "covariance"];
  Method "nav_controller_output_encode" ["nav_roll"; "nav_pitch"; "nav_bearing"; "target_bearing"; "wp_dist"; "alt_error"; "aspd_error"; "xtrack_error"] []%Z "MAVLink_nav_controller_output_message" ["nav_roll"; "nav_pitch"; "nav_bearing"; "target_bearing"; "wp_dist"; "alt_error"; "aspd_error"; "xtrack_error"];
  Method "global_position_int_cov_encode" ["time_boot_ms"; "time_utc"; "estimator_type"; "lat"; "lon"; "alt"; "relative_alt"; "vx"; "vy"; "vz"; "covariance"] []%Z "MAVLink_global_position_int_cov_message" ["time_boot_ms"; "time_utc"; "estimator_type"; "lat"; "lon"; "alt"; "relative_alt"; "vx"; "vy"; "vz"; "covariance"];
  Method "local_position_ned_cov_encode" ["time_boot_ms"; "time_utc"; "estimator_type"; "x"; "y"; "z"; "vx"; "vy"; "vz"; "ax"; "ay"; "az"; "covariance"] []%Z "MAVLink_local_position_ned_cov_message" ["time_boot_ms"; "time_utc"; "estimator_type"; "x"; "y"; "z"; "vx"; "vy"; "vz"; "ax"; "ay"; "az"; "covariance"];
  Method "rc_channels_encode" ["time_boot_ms"; "chancount"; "chan1_raw"; "chan2_raw"; "chan3_raw"; "chan4_raw"; "chan5_raw"; "chan6_raw"; "chan7_raw"; "chan8_raw"; "chan9_raw"; "chan10_raw"; "chan11_raw"; "chan12_raw"; "chan13_raw"; "chan14_raw"; "chan15_raw"; "chan16_raw"; "chan17_raw"; "chan18_raw"; "rssi"] []%Z "MAVLink_rc_channels_message" ["time_boot_ms"; "chancount"; "chan1_raw"; "chan2_raw"; "chan3_raw"; "chan4_raw"; "chan5_raw"; "chan6_raw"; "chan7_raw"; "chan8_raw"; "chan9_raw"; "chan10_raw"; "chan11_raw"; "chan12_raw"; "chan13_raw"; "chan14_raw"; "chan15_raw"; "chan16_raw"; "chan17_raw"; "chan18_raw"; "rssi"];
  Method "request_data_stream_encode" ["target_system"; "target_component"; "req_stream_id"; "req_message_rate"; "start_stop"] []%Z "MAVLink_request_data_stream_message" ["target_system"; "target_component"; "req_stream_id"; "req_message_rate"; "start_stop"];
  Method "data_stream_encode" ["stream_id"; "message_rate"; "on_off"] []%Z "MAVLink_data_stream_message" ["stream_id"; "message_rate"; "on_off"];
  Method "manual_control_encode" ["target"; "x"; "y"; "z"; "r"; "buttons"] []%Z "MAVLink_manual_control_message" ["target"; "x"; "y"; "z"; "r"; "buttons"];
  Method "rc_channels_override_encode" ["target_system"; "target_component"; "chan1_raw"; "chan2_raw"; "chan3_raw"; "chan4_raw"; "chan5_raw"; "chan6_raw"; "chan7_raw"; "chan8_raw"] []%Z "MAVLink_rc_channels_override_message" ["target_system"; "target_component"; "chan1_raw"; "chan2_raw"; "chan3_raw"; "chan4_raw"; "chan5_raw"; "chan6_raw"; "chan7_raw"; "chan8_raw"];
  Method "mission_item_int_encode" ["target_system"; "target_component"; "seq"; "frame"; "command"; "current"; "autocontinue"; "param1"; "param2"; "param3"; "param4"; "x"; "y"; "z"] []%Z "MAVLink_mission_item_int_message" ["target_system"; "target_component"; "seq"; "frame"; "command"; "current"; "autocontinue"; "param1"; "param2"; "param3"; "param4"; "x"; "y"; "z"];
  Method "vfr_hud_encode" ["airspeed"; "groundspeed"; "heading"; "throttle"; "alt"; "climb"] []%Z "MAVLink_vfr_hud_message" ["airspeed"; "groundspeed"; "heading"; "throttle"; "alt"; "climb"];
  Method "command_int_encode" ["target_system"; "target_component"; "frame"; "command"; "current"; "autocontinue"; "param1"; "param2"; "param3"; "param4"; "x"; "y"; "z"] []%Z "MAVLink_command_int_message" ["target_system"; "target_component"; "frame"; "command"; "current"; "autocontinue"; "param1"; "param2"; "param3"; "param4"; "x"; "y"; "z"];
  Method "command_long_encode" ["target_system"; "target_component"; "command"; "confirmation"; "param1"; "param2"; "param3"; "param4"; "param5"; "param6"; "param7"] []%Z "MAVLink_command_long_message" ["target_system"; "target_component"; "command"; "confirmation"; "param1"; "param2"; "param3"; "param4"; "param5"; "param6"; "param7"];
  Method "command_ack_encode" ["command"; "result"] []%Z "MAVLink_command_ack_message" ["command"; "result"];
  Method "manual_setpoint_encode" ["time_boot_ms"; "roll"; "pitch"; "yaw"; "thrust"; "mode_switch"; "manual_override_switch"] []%Z "MAVLink_manual_setpoint_message" ["time_boot_ms"; "roll"; "pitch"; "yaw"; "thrust"; "mode_switch"; "manual_override_switch"];
  Method "set_attitude_target_encode" ["time_boot_ms"; "target_system"; "target_component"; "type_mask"; "q"; "body_roll_rate"; "body_pitch_rate"; "body_yaw_rate"; "thrust"] []%Z "MAVLink_set_attitude_target_message" ["time_boot_ms"; "target_system"; "target_component"; "type_mask"; "q"; "body_roll_rate"; "body_pitch_rate"; "body_yaw_rate"; "thrust"];
  Method "attitude_target_encode" ["time_boot_ms"; "type_mask"; "q"; "body_roll_rate"; "body_pitch_rate"; "body_yaw_rate"; "thrust"] []%Z "MAVLink_attitude_target_message" ["time_boot_ms"; "type_mask"; "q"; "body_roll_rate"; "body_pitch_rate"; "body_yaw_rate"; "thrust"];
  Method "set_position_target_local_ned_encode" ["time_boot_ms"; "target_system"; "target_component"; "coordinate_frame"; "type_mask"; "x"; "y"; "z"; "vx"; "vy"; "vz"; "afx"; "afy"; "afz"; "yaw"; "yaw_rate"] []%Z "MAVLink_set_position_target_local_ned_message" ["time_boot_ms"; "target_system"; "target_component"; "coordinate_frame"; "type_mask"; "x"; "y"; "z"; "vx"; "vy"; "vz"; "afx"; "afy"; "afz"; "yaw"; "yaw_rate"];
  Method "position_target_local_ned_encode" ["time_boot_ms"; "coordinate_frame"; "type_mask"; "x"; "y"; "z"; "vx"; "vy"; "vz"; "afx"; "afy"; "afz"; "yaw"; "yaw_rate"] []%Z "MAVLink_position_target_local_ned_message" ["time_boot_ms"; "coordinate_frame"; "type_mask"; "x"; "y"; "z"; "vx"; "vy"; "vz"; "afx"; "afy"; "afz"; "yaw"; "yaw_rate"];
  Method "set_position_target_global_int_encode" ["time_boot_ms"; "target_system"; "target_component"; "coordinate_frame"; "type_mask"; "lat_int"; "lon_int"; "alt"; "vx"; "vy"; "vz"; "afx"; "afy"; "afz"; "yaw"; "yaw_rate"] []%Z "MAVLink_set_position_target_global_int_message" ["time_boot_ms"; "target_system"; "target_component"; "coordinate_frame"; "type_mask"; "lat_int"; "lon_int"; "alt"; "vx"; "vy"; "vz"; "afx"; "afy"; "afz"; "yaw"; "yaw_rate"];
  Method "position_target_global_int_encode" ["time_boot_ms"; "coordinate_frame"; "type_mask"; "lat_int"; "lon_int"; "alt"; "vx"; "vy"; "vz"; "afx"; "afy"; "afz"; "yaw"; "yaw_rate"] []%Z "MAVLink_position_target_global_int_message" ["time_boot_ms"; "coordinate_frame"; "type_mask"; "lat_int"; "lon_int"; "alt"; "vx"; "vy"; "vz"; "afx"; "afy"; "afz"; "yaw"; "yaw_rate"];
  Method "local_position_ned_system_global_offset_encode" ["time_boot_ms"; "x"; "y"; "z"; "roll"; "pitch"; "yaw"] []%Z "MAVLink_local_position_ned_system_global_offset_message" ["time_boot_ms"; "x"; "y"; "z"; "roll"; "pitch"; "yaw"];
  Method "hil_state_encode" ["time_usec"; "roll"; "pitch"; "yaw"; "rollspeed"; "pitchspeed"; "yawspeed"; "lat"; "lon"; "alt"; "vx"; "vy"; "vz"; "xacc"; "yacc"; "zacc"] []%Z "MAVLink_hil_state_message" ["time_usec"; "roll"; "pitch"; "yaw"; "rollspeed"; "pitchspeed"; "yawspeed"; "lat"; "lon"; "alt"; "vx"; "vy"; "vz"; "xacc"; "yacc"; "zacc"];
  Method "hil_controls_encode" ["time_usec"; "roll_ailerons"; "pitch_elevator"; "yaw_rudder"; "throttle"; "aux1"; "aux2"; "aux3"; "aux4"; "mode"; "nav_mode"] []%Z "MAVLink_hil_controls_message" ["time_usec"; "roll_ailerons"; "pitch_elevator"; "yaw_rudder"; "throttle"; "aux1"; "aux2"; "aux3"; "aux4"; "mode"; "nav_mode"];
  Method "hil_rc_inputs_raw_encode" ["time_usec"; "chan1_raw"; "chan2_raw"; "chan3_raw"; "chan4_raw"; "chan5_raw"; "chan6_raw"; "chan7_raw"; "chan8_raw"; "chan9_raw"; "chan10_raw"; "chan11_raw"; "chan12_raw"; "rssi"] []%Z "MAVLink_hil_rc_inputs_raw_message" ["time_usec"; "chan1_raw"; "chan2_raw"; "chan3_raw"; "chan4_raw"; "chan5_raw"; "chan6_raw"; "chan7_raw"; "chan8_raw"; "chan9_raw"; "chan10_raw"; "chan11_raw"; "chan12_raw"; "rssi"];
  Method "optical_flow_encode" ["time_usec"; "sensor_id"; "flow_x"; "flow_y"; "flow_comp_m_x"; "flow_comp_m_y"; "quality"; "ground_distance"] []%Z "MAVLink_optical_flow_message" ["time_usec"; "sensor_id"; "flow_x"; "flow_y"; "flow_comp_m_x"; "flow_comp_m_y"; "quality"; "ground_distance"];
  Method "global_vision_position_estimate_encode" ["usec"; "x"; "y"; "z"; "roll"; "pitch"; "yaw"] []%Z "MAVLink_global_vision_position_estimate_message" ["usec"; "x"; "y"; "z"; "roll"; "pitch"; "yaw"];
  Method "vision_position_estimate_encode" ["usec"; "x"; "y"; "z"; "roll"; "pitch"; "yaw"] []%Z "MAVLink_vision_position_estimate_message" ["usec"; "x"; "y"; "z"; "roll"; "pitch"; "yaw"];
  Method "vision_speed_estimate_encode" ["usec"; "x"; "y"; "z"] []%Z "MAVLink_vision_speed_estimate_message" ["usec"; "x"; "y"; "z"];
  Method "vicon_position_estimate_encode" ["usec"; "x"; "y"; "z"; "roll"; "pitch"; "yaw"] []%Z "MAVLink_vicon_position_estimate_message" ["usec"; "x"; "y"; "z"; "roll"; "pitch"; "yaw"];
  Method "highres_imu_encode" ["time_usec"; "xacc"; "yacc"; "zacc"; "xgyro"; "ygyro"; "zgyro"; "xmag"; "ymag"; "zmag"; "abs_pressure"; "diff_pressure"; "pressure_alt"; "temperature"; "fields_updated"] []%Z "MAVLink_highres_imu_message" ["time_usec"; "xacc"; "yacc"; "zacc"; "xgyro"; "ygyro"; "zgyro"; "xmag"; "ymag"; "zmag"; "abs_pressure"; "diff_pressure"; "pressure_alt"; "temperature"; "fields_updated"];
  Method "optical_flow_rad_encode" ["time_usec"; "sensor_id"; "integration_time_us"; "integrated_x"; "integrated_y"; "integrated_xgyro"; "integrated_ygyro"; "integrated_zgyro"; "temperature"; "quality"; "time_delta_distance_us"; "distance"] []%Z "MAVLink_optical_flow_rad_message" ["time_usec"; "sensor_id"; "integration_time_us"; "integrated_x"; "integrated_y"; "integrated_xgyro"; "integrated_ygyro"; "integrated_zgyro"; "temperature"; "quality"; "time_delta_distance_us"; "distance"];
  Method "hil_sensor_encode" ["time_usec"; "xacc"; "yacc"; "zacc"; "xgyro"; "ygyro"; "zgyro"; "xmag"; "ymag"; "zmag"; "abs_pressure"; "diff_pressure"; "pressure_alt"; "temperature"; "fields_updated"] []%Z "MAVLink_hil_sensor_message" ["time_usec"; "xacc"; "yacc"; "zacc"; "xgyro"; "ygyro"; "zgyro"; "xmag"; "ymag"; "zmag"; "abs_pressure"; "diff_pressure"; "pressure_alt"; "temperature"; "fields_updated"];
  Method "sim_state_encode" ["q1"; "q2"; "q3"; "q4"; "roll"; "pitch"; "yaw"; "xacc"; "yacc"; "zacc"; "xgyro"; "ygyro"; "zgyro"; "lat"; "lon"; "alt"; "std_dev_horz"; "std_dev_vert"; "vn"; "ve"; "vd"] []%Z "MAVLink_sim_state_message" ["q1"; "q2"; "q3"; "q4"; "roll"; "pitch"; "yaw"; "xacc"; "yacc"; "zacc"; "xgyro"; "ygyro"; "zgyro"; "lat"; "lon"; "alt"; "std_dev_horz"; "std_dev_vert"; "vn"; "ve"; "vd"];
  Method "radio_status_encode" ["rssi"; "remrssi"; "txbuf"; "noise"; "remnoise"; "rxerrors"; "fixed"] []%Z "MAVLink_radio_status_message" ["rssi"; "remrssi"; "txbuf"; "noise"; "remnoise"; "rxerrors"; "fixed"];
  Method "file_transfer_protocol_encode" ["target_network"; "target_system"; "target_component"; "payload"] []%Z "MAVLink_file_transfer_protocol_message" ["target_network"; "target_system"; "target_component"; "payload"];
  Method "timesync_encode" ["tc1"; "ts1"] []%Z "MAVLink_timesync_message" ["tc1"; "ts1"];
  Method "camera_trigger_encode" ["time_usec"; "seq"] []%Z "MAVLink_camera_trigger_message" ["time_usec"; "seq"];
  Method "hil_gps_encode" ["time_usec"; "fix_type"; "lat"; "lon"; "alt"; "eph"; "epv"; "vel"; "vn"; "ve"; "vd"; "cog"; "satellites_visible"] []%Z "MAVLink_hil_gps_message" ["time_usec"; "fix_type"; "lat"; "lon"; "alt"; "eph"; "epv"; "vel"; "vn"; "ve"; "vd"; "cog"; "satellites_visible"];
  Method "hil_optical_flow_encode" ["time_usec"; "sensor_id"; "integration_time_us"; "integrated_x"; "integrated_y"; "integrated_xgyro"; "integrated_ygyro"; "integrated_zgyro"; "temperature"; "quality"; "time_delta_distance_us"; "distance"] []%Z "MAVLink_hil_optical_flow_message" ["time_usec"; "sensor_id"; "integration_time_us"; "integrated_x"; "integrated_y"; "integrated_xgyro"; "integrated_ygyro"; "integrated_zgyro"; "temperature"; "quality"; "time_delta_distance_us"; "distance"];
  Method "hil_state_quaternion_encode" ["time_usec"; "attitude_quaternion"; "rollspeed"; "pitchspeed"; "yawspeed"; "lat"; "lon"; "alt"; "vx"; "vy"; "vz"; "ind_airspeed"; "true_airspeed"; "xacc"; "yacc"; "zacc"] []%Z "MAVLink_hil_state_quaternion_message" ["time_usec"; "attitude_quaternion"; "rollspeed"; "pitchspeed"; "yawspeed"; "lat"; "lon"; "alt"; "vx"; "vy"; "vz"; "ind_airspeed"; "true_airspeed"; "xacc"; "yacc"; "zacc"];
  Method "scaled_imu2_encode" ["time_boot_ms"; "xacc"; "yacc"; "zacc"; "xgyro"; "ygyro"; "zgyro"; "xmag"; "ymag"; "zmag"] []%Z "MAVLink_scaled_imu2_message" ["time_boot_ms"; "xacc"; "yacc"; "zacc"; "xgyro"; "ygyro"; "zgyro"; "xmag"; "ymag"; "zmag"];
  Method "log_request_list_encode" ["target_system"; "target_component"; "start"; "end"] []%Z "MAVLink_log_request_list_message" ["target_system"; "target_component"; "start"; "end"];
  Method "log_entry_encode" ["id"; "num_logs"; "last_log_num"; "time_utc"; "size"] []%Z "MAVLink_log_entry_message" ["id"; "num_logs"; "last_log_num"; "time_utc"; "size"];
  Method "log_request_data_encode" ["target_system"; "target_component"; "id"; "ofs"; "count"] []%Z "MAVLink_log_request_data_message" ["target_system"; "target_component"; "id"; "ofs"; "count"];
  Method "log_data_encode" ["id"; "ofs"; "count"; "data"] []%Z "MAVLink_log_data_message" ["id"; "ofs"; "count"; "data"];
  Method "log_erase_encode" ["target_system"; "target_component"] []%Z "MAVLink_log_erase_message" ["target_system"; "target_component"];
  Method "log_request_end_encode" ["target_system"; "target_component"] []%Z "MAVLink_log_request_end_message" ["target_system"; "target_component"];
  Method "gps_inject_data_encode" ["target_system"; "target_component"; "len"; "data"] []%Z "MAVLink_gps_inject_data_message" ["target_system"; "target_component"; "len"; "data"];
  Method "gps2_raw_encode" ["time_usec"; "fix_type"; "lat"; "lon"; "alt"; "eph"; "epv"; "vel"; "cog"; "satellites_visible"; "dgps_numch"; "dgps_age"] []%Z "MAVLink_gps2_raw_message" ["time_usec"; "fix_type"; "lat"; "lon"; "alt"; "eph"; "epv"; "vel"; "cog"; "satellites_visible"; "dgps_numch"; "dgps_age"];
  Method "power_status_encode" ["Vcc"; "Vservo"; "flags"] []%Z "MAVLink_power_status_message" ["Vcc"; "Vservo"; "flags"];
  Method "serial_control_encode" ["device"; "flags"; "timeout"; "baudrate"; "count"; "data"] []%Z "MAVLink_serial_control_message" ["device"; "flags"; "timeout"; "baudrate"; "count"; "data"];
  Method "gps_rtk_encode" ["time_last_baseline_ms"; "rtk_receiver_id"; "wn"; "tow"; "rtk_health"; "rtk_rate"; "nsats"; "baseline_coords_type"; "baseline_a_mm"; "baseline_b_mm"; "baseline_c_mm"; "accuracy"; "iar_num_hypotheses"] []%Z "MAVLink_gps_rtk_message" ["time_last_baseline_ms"; "rtk_receiver_id"; "wn"; "tow"; "rtk_health"; "rtk_rate"; "nsats"; "baseline_coords_type"; "baseline_a_mm"; "baseline_b_mm"; "baseline_c_mm"; "accuracy"; "iar_num_hypotheses"];
  Method "gps2_rtk_encode" ["time_last_baseline_ms"; "rtk_receiver_id"; "wn"; "tow"; "rtk_health"; "rtk_rate"; "nsats"; "baseline_coords_type"; "baseline_a_mm"; "baseline_b_mm"; "baseline_c_mm"; "accuracy"; "iar_num_hypotheses"] []%Z "MAVLink_gps2_rtk_message" ["time_last_baseline_ms"; "rtk_receiver_id"; "wn"; "tow"; "rtk_health"; "rtk_rate"; "nsats"; "baseline_coords_type"; "baseline_a_mm"; "baseline_b_mm"; "baseline_c_mm"; "accuracy"; "iar_num_hypotheses"];
  Method "scaled_imu3_encode" ["time_boot_ms"; "xacc"; "yacc"; "zacc"; "xgyro"; "ygyro"; "zgyro"; "xmag"; "ymag"; "zmag"] []%Z "MAVLink_scaled_imu3_message" ["time_boot_ms"; "xacc"; "yacc"; "zacc"; "xgyro"; "ygyro"; "zgyro"; "xmag"; "ymag"; "zmag"];
  Method "data_transmission_handshake_encode" ["type"; "size"; "width"; "height"; "packets"; "payload"; "jpg_quality"] []%Z "MAVLink_data_transmission_handshake_message" ["type"; "size"; "width"; "height"; "packets"; "payload"; "jpg_quality"];
  Method "encapsulated_data_encode" ["seqnr"; "data"] []%Z "MAVLink_encapsulated_data_message" ["seqnr"; "data"];
  Method "distance_sensor_encode" ["time_boot_ms"; "min_distance"; "max_distance"; "current_distance"; "type"; "id"; "orientation"; "covariance"] []%Z "MAVLink_distance_sensor_message" ["time_boot_ms"; "min_distance"; "max_distance"; "current_distance"; "type"; "id"; "orientation"; "covariance"];
  Method "terrain_request_encode" ["lat"; "lon"; "grid_spacing"; "mask"] []%Z "MAVLink_terrain_request_message" ["lat"; "lon"; "grid_spacing"; "mask"];
  Method "terrain_data_encode" ["lat"; "lon"; "grid_spacing"; "gridbit"; "data"] []%Z "MAVLink_terrain_data_message" ["lat"; "lon"; "grid_spacing"; "gridbit"; "data"];
  Method "terrain_check_encode" ["lat"; "lon"] []%Z "MAVLink_terrain_check_message" ["lat"; "lon"];
  Method "terrain_report_encode" ["lat"; "lon"; "spacing"; "terrain_height"; "current_height"; "pending"; "loaded"] []%Z "MAVLink_terrain_report_message" ["lat"; "lon"; "spacing"; "terrain_height"; "current_height"; "pending"; "loaded"];
  Method "scaled_pressure2_encode" ["time_boot_ms"; "press_abs"; "press_diff"; "temperature"] []%Z "MAVLink_scaled_pressure2_message" ["time_boot_ms"; "press_abs"; "press_diff"; "temperature"];
  Method "att_pos_mocap_encode" ["time_usec"; "q"; "x"; "y"; "z"] []%Z "MAVLink_att_pos_mocap_message" ["time_usec"; "q"; "x"; "y"; "z"];
  Method "set_actuator_control_target_encode" ["time_usec"; "group_mlx"; "target_system"; "target_component"; "controls"] []%Z "MAVLink_set_actuator_control_target_message" ["time_usec"; "group_mlx"; "target_system"; "target_component"; "controls"];
  Method "actuator_control_target_encode" ["time_usec"; "group_mlx"; "controls"] []%Z "MAVLink_actuator_control_target_message" ["time_usec"; "group_mlx"; "controls"];
  Method "altitude_encode" ["time_usec"; "altitude_monotonic"; "altitude_amsl"; "altitude_local"; "altitude_relative"; "altitude_terrain"; "bottom_clearance"] []%Z "MAVLink_altitude_message" ["time_usec"; "altitude_monotonic"; "altitude_amsl"; "altitude_local"; "altitude_relative"; "altitude_terrain"; "bottom_clearance"];
  Method "resource_request_encode" ["request_id"; "uri_type"; "uri"; "transfer_type"; "storage"] []%Z "MAVLink_resource_request_message" ["request_id"; "uri_type"; "uri"; "transfer_type"; "storage"];
  Method "scaled_pressure3_encode" ["time_boot_ms"; "press_abs"; "press_diff"; "temperature"] []%Z "MAVLink_scaled_pressure3_message" ["time_boot_ms"; "press_abs"; "press_diff"; "temperature"];
  Method "control_system_state_encode" ["time_usec"; "x_acc"; "y_acc"; "z_acc"; "x_vel"; "y_vel"; "z_vel"; "x_pos"; "y_pos"; "z_pos"; "airspeed"; "vel_variance"; "pos_variance"; "q"; "roll_rate"; "pitch_rate"; "yaw_rate"] []%Z "MAVLink_control_system_state_message" ["time_usec"; "x_acc"; "y_acc"; "z_acc"; "x_vel"; "y_vel"; "z_vel"; "x_pos"; "y_pos"; "z_pos"; "airspeed"; "vel_variance"; "pos_variance"; "q"; "roll_rate"; "pitch_rate"; "yaw_rate"];
  Method "battery_status_encode" ["id"; "battery_function"; "type"; "temperature"; "voltages"; "current_battery"; "current_consumed"; "energy_consumed"; "battery_remaining"] []%Z "MAVLink_battery_status_message" ["id"; "battery_function"; "type"; "temperature"; "voltages"; "current_battery"; "current_consumed"; "energy_consumed"; "battery_remaining"];
  Method "autopilot_version_encode" ["capabilities"; "main_sw_build_time"; "main_sw_version"; "mavlink_sw_version"; "os_sw_version"; "board_version"; "main_custom_version"; "mavlink_custom_version"; "os_custom_version"; "vendor_id"; "product_id"; "uid"] []%Z "MAVLink_autopilot_version_message" ["capabilities"; "main_sw_build_time"; "main_sw_version"; "mavlink_sw_version"; "os_sw_version"; "board_version"; "main_custom_version"; "mavlink_custom_version"; "os_custom_version"; "vendor_id"; "product_id"; "uid"];
  Method "landing_target_encode" ["time_usec"; "target_num"; "frame"; "angle_x"; "angle_y"; "distance"; "size_x"; "size_y"] []%Z "MAVLink_landing_target_message" ["time_usec"; "target_num"; "frame"; "angle_x"; "angle_y"; "distance"; "size_x"; "size_y"];
  Method "vibration_encode" ["time_usec"; "vibration_x"; "vibration_y"; "vibration_z"; "clipping_0"; "clipping_1"; "clipping_2"] []%Z "MAVLink_vibration_message" ["time_usec"; "vibration_x"; "vibration_y"; "vibration_z"; "clipping_0"; "clipping_1"; "clipping_2"];
  Method "home_position_encode" ["latitude"; "longitude"; "altitude"; "x"; "y"; "z"; "q"; "approach_x"; "approach_y"; "approach_z"] []%Z "MAVLink_home_position_message" ["latitude"; "longitude"; "altitude"; "x"; "y"; "z"; "q"; "approach_x"; "approach_y"; "approach_z"];
  Method "set_home_position_encode" ["target_system"; "latitude"; "longitude"; "altitude"; "x"; "y"; "z"; "q"; "approach_x"; "approach_y"; "approach_z"] []%Z "MAVLink_set_home_position_message" ["target_system"; "latitude"; "longitude"; "altitude"; "x"; "y"; "z"; "q"; "approach_x"; "approach_y"; "approach_z"];
  Method "message_interval_encode" ["message_id"; "interval_us"] []%Z "MAVLink_message_interval_message" ["message_id"; "interval_us"];
  Method "extended_sys_state_encode" ["vtol_state"; "landed_state"] []%Z "MAVLink_extended_sys_state_message" ["vtol_state"; "landed_state"];
  Method "adsb_vehicle_encode" ["ICAO_address"; "lat"; "lon"; "altitude_type"; "altitude"; "heading"; "hor_velocity"; "ver_velocity"; "callsign"; "emitter_type"; "tslc"; "flags"; "squawk"] []%Z "MAVLink_adsb_vehicle_message" ["ICAO_address"; "lat"; "lon"; "altitude_type"; "altitude"; "heading"; "hor_velocity"; "ver_velocity"; "callsign"; "emitter_type"; "tslc"; "flags"; "squawk"];
  Method "v2_extension_encode" ["target_network"; "target_system"; "target_component"; "message_type"; "payload"] []%Z "MAVLink_v2_extension_message" ["target_network"; "target_system"; "target_component"; "message_type"; "payload"];
  Method "memory_vect_encode" ["address"; "ver"; "type"; "value"] []%Z "MAVLink_memory_vect_message" ["address"; "ver"; "type"; "value"];
  Method "debug_vect_encode" ["name"; "time_usec"; "x"; "y"; "z"] []%Z "MAVLink_debug_vect_message" ["name"; "time_usec"; "x"; "y"; "z"];
  Method "named_value_float_encode" ["time_boot_ms"; "name"; "value"] []%Z "MAVLink_named_value_float_message" ["time_boot_ms"; "name"; "value"];
  Method "named_value_int_encode" ["time_boot_ms"; "name"; "value"] []%Z "MAVLink_named_value_int_message" ["time_boot_ms"; "name"; "value"];
  Method "statustext_encode" ["severity"; "text"] []%Z "MAVLink_statustext_message" ["severity"; "text"];
  Method "debug_encode" ["time_boot_ms"; "ind"; "value"] []%Z "MAVLink_debug_message" ["time_boot_ms"; "ind"; "value"];
  Method "altimeter_sensor_encode" ["time_boot_ms"; "Altitude_front"; "Altitude_back"] []%Z "MAVLink_altimeter_sensor_message" ["time_boot_ms"; "Altitude_front"; "Altitude_back"];
  Method "scaled_svs_encode" ["time_boot_ms"; "Speed_of_Sound"; "Depth"; "Temperature"; "Status"; "Reserved"] []%Z "MAVLink_scaled_svs_message" ["time_boot_ms"; "Speed_of_Sound"; "Depth"; "Temperature"; "Status"; "Reserved"];
  Method "ctd_status_encode" ["time_boot_ms"; "Conductivity"; "Depth"; "Temperature"; "Status"; "Reserved"] []%Z "MAVLink_ctd_status_message" ["time_boot_ms"; "Conductivity"; "Depth"; "Temperature"; "Status"; "Reserved"];
  Method "motor_status_encode" ["time_boot_ms"; "motor_num"; "rpm"; "voltage"; "current"; "Status"; "Fault"; "temperature"; "pressure"] []%Z "MAVLink_motor_status_message" ["time_boot_ms"; "motor_num"; "rpm"; "voltage"; "current"; "Status"; "Fault"; "temperature"; "pressure"];
  Method "rf_modem_status_encode" ["time_boot_ms"; "Bit_Rate"; "Status"; "current"; "Reserved"; "Reserved2"] []%Z "MAVLink_rf_modem_status_message" ["time_boot_ms"; "Bit_Rate"; "Status"; "current"; "Reserved"; "Reserved2"];
  Method "system_onoff_req_encode" ["time_boot_ms"; "status"] []%Z "MAVLink_system_onoff_req_message" ["time_boot_ms"; "status"];
  Method "system_onoff_status_encode" ["time_boot_ms"; "status"] []%Z "MAVLink_system_onoff_status_message" ["time_boot_ms"; "status"];
  Method "chamber_status_encode" ["time_boot_ms"; "chamber_num"; "pressure"; "temperature"; "humidity"] []%Z "MAVLink_chamber_status_message" ["time_boot_ms"; "chamber_num"; "pressure"; "temperature"; "humidity"];
  Method "task_status_encode" ["taskID"; "task_status"; "time"; "task_time"; "task_count"; "parse_success_count"; "parse_error_count"; "interupt_count"; "rst_count"; "err1"; "err2"] []%Z "MAVLink_task_status_message" ["taskID"; "task_status"; "time"; "task_time"; "task_count"; "parse_success_count"; "parse_error_count"; "interupt_count"; "rst_count"; "err1"; "err2"];
  Method "param_est_test_encode" ["time_boot_ms_imu"; "time_boot_ms_io"; "gyro_x"; "gyro_y"; "gyro_z"; "gyro_dot_x"; "gyro_dot_y"; "gyro_dot_z"; "accel_x"; "accel_y"; "accel_z"; "accel_no_g_x"; "accel_no_g_y"; "accel_no_g_z"; "dvl_x"; "dvl_y"; "dvl_z"; "roll"; "pitch"; "yaw"; "motor1_rpm"; "motor2_rpm"; "motor3_rpm"; "motor4_rpm"; "motor5_rpm"; "motor6_rpm"; "motor7_rpm"] []%Z "MAVLink_param_est_test_message" ["time_boot_ms_imu"; "time_boot_ms_io"; "gyro_x"; "gyro_y"; "gyro_z"; "gyro_dot_x"; "gyro_dot_y"; "gyro_dot_z"; "accel_x"; "accel_y"; "accel_z"; "accel_no_g_x"; "accel_no_g_y"; "accel_no_g_z"; "dvl_x"; "dvl_y"; "dvl_z"; "roll"; "pitch"; "yaw"; "motor1_rpm"; "motor2_rpm"; "motor3_rpm"; "motor4_rpm"; "motor5_rpm"; "motor6_rpm"; "motor7_rpm"];
  Method "motor_cmd_encode" ["mode"; "speed"] []%Z "MAVLink_motor_cmd_message" ["mode"; "speed"];
  Method "bathymetry_encode" ["time_usec"; "depth"; "altitude"; "distance"; "range_from_body"; "seabed_phi"; "seabed_theta"] []%Z "MAVLink_bathymetry_message" ["time_usec"; "depth"; "altitude"; "distance"; "range_from_body"; "seabed_phi"; "seabed_theta"];
  Method "power_consumption_motors_encode" ["time_boot_ms"; "current_ml"; "current_mr"; "current_p"; "current_yb"; "current_yf"; "current_wl"; "current_wr"; "battery_voltage"] []%Z "MAVLink_power_consumption_motors_message" ["time_boot_ms"; "current_ml"; "current_mr"; "current_p"; "current_yb"; "current_yf"; "current_wl"; "current_wr"; "battery_voltage"];
  Method "power_consumption_2_encode" ["time_boot_ms"; "current_1"; "voltage_1"; "current_2"; "voltage_2"; "current_3"; "voltage_3"; "current_4"; "voltage_4"] []%Z "MAVLink_power_consumption_2_message" ["time_boot_ms"; "current_1"; "voltage_1"; "current_2"; "voltage_2"; "current_3"; "voltage_3"; "current_4"; "voltage_4"];
  Method "system_status_2_encode" ["time_boot_ms"; "hc_mode"; "hc_system_status"; "hc_err_id"; "debug1"; "debug2"] []%Z "MAVLink_system_status_2_message" ["time_boot_ms"; "hc_mode"; "hc_system_status"; "hc_err_id"; "debug1"; "debug2"];
  Method "gps_timing_encode" ["time_boot_ms"; "tow_ms"; "tow_ns"; "accuracy"; "local_time_s"; "gps_fix"; "rtc_month"; "rtc_day"] []%Z "MAVLink_gps_timing_message" ["time_boot_ms"; "tow_ms"; "tow_ns"; "accuracy"; "local_time_s"; "gps_fix"; "rtc_month"; "rtc_day"];
  Method "magnetometer_calibration_encode" ["time_boot_ms"; "bias"; "scaling_matrix"] []%Z "MAVLink_magnetometer_calibration_message" ["time_boot_ms"; "bias"; "scaling_matrix"];
  Method "algorithm_status_encode" ["time_boot_ms"; "rate"; "nav_type"; "external_heading"; "calibrated"; "reset"; "hc_maneuver"; "hc_maneuver2"; "velocity_inov"; "attitude_cov"; "pos_cov"] []%Z "MAVLink_algorithm_status_message" ["time_boot_ms"; "rate"; "nav_type"; "external_heading"; "calibrated"; "reset"; "hc_maneuver"; "hc_maneuver2"; "velocity_inov"; "attitude_cov"; "pos_cov"];
  Method "dvl_bt_raw_encode" ["time_boot_ms"; "v1"; "v2"; "v3"; "v_err"; "wm_v1"; "wm_v2"; "wm_v3"; "wm_v4"; "range_1"; "range_2"; "range_3"; "range_4"; "good_beams_precentege"; "ensamble_number"] []%Z "MAVLink_dvl_bt_raw_message" ["time_boot_ms"; "v1"; "v2"; "v3"; "v_err"; "wm_v1"; "wm_v2"; "wm_v3"; "wm_v4"; "range_1"; "range_2"; "range_3"; "range_4"; "good_beams_precentege"; "ensamble_number"];
  Method "dvl_bt_scaled_encode" ["time_boot_ms"; "v1"; "v2"; "v3"; "altitude"; "distance"] []%Z "MAVLink_dvl_bt_scaled_message" ["time_boot_ms"; "v1"; "v2"; "v3"; "altitude"; "distance"];
  Method "dvl_bt_highres_encode" ["time_boot_ms"; "V1"; "V2"; "V3"; "V4"; "Bt_Dmg_1"; "Bt_Dmg_2"; "Bt_Dmg_3"; "Bt_Dmg_4"; "Ref_Frame"; "Wm_V1"; "Wm_V2"; "Wm_V3"; "Wm_V4"; "Svs"; "Slant_range"; "Axes_delta_range"; "Vertical_range"; "Percent_good_4bm"; "Percent_good_12bm"; "Percent_good_34bm"; "Bm_1_raw_range"; "Bm_2_raw_range"; "Bm_3_raw_range"; "Bm_4_raw_range"] []%Z "MAVLink_dvl_bt_highres_message" ["time_boot_ms"; "V1"; "V2"; "V3"; "V4"; "Bt_Dmg_1"; "Bt_Dmg_2"; "Bt_Dmg_3"; "Bt_Dmg_4"; "Ref_Frame"; "Wm_V1"; "Wm_V2"; "Wm_V3"; "Wm_V4"; "Svs"; "Slant_range"; "Axes_delta_range"; "Vertical_range"; "Percent_good_4bm"; "Percent_good_12bm"; "Percent_good_34bm"; "Bm_1_raw_range"; "Bm_2_raw_range"; "Bm_3_raw_range"; "Bm_4_raw_range"];
  Method "dvl_wp_raw_encode" ["time_boot_ms"; "Depth_Cell_ID"; "v1"; "v2"; "v3"; "v_err"; "Depth_Correlation_1"; "Depth_Correlation_2"; "Depth_Correlation_3"; "Depth_Correlation_4"; "Depth_Echo_Intensity_1"; "Depth_Echo_Intensity_2"; "Depth_Echo_Intensity_3"; "Depth_Echo_Intensity_4"; "Percent_Good_1"; "Percent_Good_2"; "Percent_Good_3"; "Percent_Good_4"; "status"] []%Z "MAVLink_dvl_wp_raw_message" ["time_boot_ms"; "Depth_Cell_ID"; "v1"; "v2"; "v3"; "v_err"; "Depth_Correlation_1"; "Depth_Correlation_2"; "Depth_Correlation_3"; "Depth_Correlation_4"; "Depth_Echo_Intensity_1"; "Depth_Echo_Intensity_2"; "Depth_Echo_Intensity_3"; "Depth_Echo_Intensity_4"; "Percent_Good_1"; "Percent_Good_2"; "Percent_Good_3"; "Percent_Good_4"; "status"];
  Method "time_date_info_encode" ["time_boot_ms"; "year"; "month"; "day"; "hours"; "minutes"; "seconds"; "millisec"] []%Z "MAVLink_time_date_info_message" ["time_boot_ms"; "year"; "month"; "day"; "hours"; "minutes"; "seconds"; "millisec"];
  Method "pinger_data_encode" ["time_boot_ms"; "range"; "azimuth"] []%Z "MAVLink_pinger_data_message" ["time_boot_ms"; "range"; "azimuth"];
  Method "hc_acoustic_pos_encode" ["time_boot_ms"; "range"; "azimuth"; "lat_1"; "lon_1"; "tow_1"] []%Z "MAVLink_hc_acoustic_pos_message" ["time_boot_ms"; "range"; "azimuth"; "lat_1"; "lon_1"; "tow_1"];
  Method "debug_msg_1_encode" ["time_boot_ms"; "debug_1_1"; "debug_1_2"; "debug_1_3"; "debug_1_4"; "debug_1_5"; "debug_1_6"] []%Z "MAVLink_debug_msg_1_message" ["time_boot_ms"; "debug_1_1"; "debug_1_2"; "debug_1_3"; "debug_1_4"; "debug_1_5"; "debug_1_6"];
  Method "hc_acoustic_channel_encode" ["time_boot_ms"; "mpd"; "psnr"; "agc"; "spd"; "crc_pass"; "ccerr"; "source"; "destination"] []%Z "MAVLink_hc_acoustic_channel_message" ["time_boot_ms"; "mpd"; "psnr"; "agc"; "spd"; "crc_pass"; "ccerr"; "source"; "destination"];
  Method "acoustic_transmission_log_encode" ["time_boot_ms"; "tow_ms"; "count"; "slot_num"; "data"] []%Z "MAVLink_acoustic_transmission_log_message" ["time_boot_ms"; "tow_ms"; "count"; "slot_num"; "data"]
].

(** The *_send methods; mavlink_utils/HC_dialect.py:8956-14254. *)
Definition sends : list method :=
[
  Method "heartbeat_send" ["type"; "autopilot"; "base_mode"; "custom_mode"; "system_status"; "mavlink_version"] [3]%Z "heartbeat_encode" ["type"; "autopilot"; "base_mode"; "custom_mode"; "system_status"; "mavlink_version"];
  Method "sys_status_send" ["onboard_control_sensors_present"; "onboard_control_sensors_enabled"; "onboard_control_sensors_health"; "load"; "voltage_battery"; "current_battery"; "battery_remaining"; "drop_rate_comm"; "errors_comm"; "errors_count1"; "errors_count2"; "errors_count3"; "errors_count4"] []%Z "sys_status_encode" ["onboard_control_sensors_present"; "onboard_control_sensors_enabled"; "onboard_control_sensors_health"; "load"; "voltage_battery"; "current_battery"; "battery_remaining"; "drop_rate_comm"; "errors_comm"; "errors_count1"; "errors_count2"; "errors_count3"; "errors_count4"];
  Method "system_time_send" ["time_unix_usec"; "time_boot_ms"] []%Z "system_time_encode" ["time_unix_usec"; "time_boot_ms"];
  Method "ping_send" ["time_usec"; "seq"; "target_system"; "target_component"] []%Z "ping_encode" ["time_usec"; "seq"; "target_system"; "target_component"];
  Method "change_operator_control_send" ["target_system"; "control_request"; "version"; "passkey"] []%Z "change_operator_control_encode" ["target_system"; "control_request"; "version"; "passkey"];
  Method "change_operator_control_ack_send" ["gcs_system_id"; "control_request"; "ack"] []%Z "change_operator_control_ack_encode" ["gcs_system_id"; "control_request"; "ack"];
  Method "auth_key_send" ["key"] []%Z "auth_key_encode" ["key"];
  Method "set_mode_send" ["target_system"; "base_mode"; "custom_mode"] []%Z "set_mode_encode" ["target_system"; "base_mode"; "custom_mode"];
  Method "param_request_read_send" ["target_system"; "target_component"; "param_id"; "param_index"] []%Z "param_request_read_encode" ["target_system"; "target_component"; "param_id"; "param_index"];
  Method "param_request_list_send" ["target_system"; "target_component"] []%Z "param_request_list_encode" ["target_system"; "target_component"];
  Method "param_value_send" ["param_id"; "param_value"; "param_type"; "param_count"; "param_index"] []%Z "param_value_encode" ["param_id"; "param_value"; "param_type"; "param_count"; "param_index"];
  Method "param_set_send" ["target_system"; "target_component"; "param_id"; "param_value"; "param_type"] []%Z "param_set_encode" ["target_system"; "target_component"; "param_id"; "param_value"; "param_type"];
  Method "gps_raw_int_send" ["time_usec"; "fix_type"; "lat"; "lon"; "alt"; "eph"; "epv"; "vel"; "cog"; "satellites_visible"] []%Z "gps_raw_int_encode" ["time_usec"; "fix_type"; "lat"; "lon"; "alt"; "eph"; "epv"; "vel"; "cog"; "satellites_visible"];
  Method "gps_status_send" ["satellites_visible"; "satellite_prn"; "satellite_used"; "satellite_elevation"; "satellite_azimuth"; "satellite_snr"] []%Z "gps_status_encode" ["satellites_visible"; "satellite_prn"; "satellite_used"; "satellite_elevation"; "satellite_azimuth"; "satellite_snr"];
  Method "scaled_imu_send" ["time_boot_ms"; "xacc"; "yacc"; "zacc"; "xgyro"; "ygyro"; "zgyro"; "xmag"; "ymag"; "zmag"] []%Z "scaled_imu_encode" ["time_boot_ms"; "xacc"; "yacc"; "zacc"; "xgyro"; "ygyro"; "zgyro"; "xmag"; "ymag"; "zmag"];
  Method "raw_imu_send" ["time_usec"; "xacc"; "yacc"; "zacc"; "xgyro"; "ygyro"; "zgyro"; "xmag"; "ymag"; "zmag"] []%Z "raw_imu_encode" ["time_usec"; "xacc"; "yacc"; "zacc"; "xgyro"; "ygyro"; "zgyro"; "xmag"; "ymag"; "zmag"];
  Method "raw_pressure_send" ["time_usec"; "press_abs"; "press_diff1"; "press_diff2"; "temperature"] []%Z "raw_pressure_encode" ["time_usec"; "press_abs"; "press_diff1"; "press_diff2"; "temperature"];
  Method "scaled_pressure_send" ["time_boot_ms"; "press_abs"; "press_diff"; "temperature"] []%Z "scaled_pressure_encode" ["time_boot_ms"; "press_abs"; "press_diff"; "temperature"];
  Method "attitude_send" ["time_boot_ms"; "roll"; "pitch"; "yaw"; "rollspeed"; "pitchspeed"; "yawspeed"] []%Z "attitude_encode" ["time_boot_ms"; "roll"; "pitch"; "yaw"; "rollspeed"; "pitchspeed"; "yawspeed"];
  Method "attitude_quaternion_send" ["time_boot_ms"; "q1"; "q2"; "q3"; "q4"; "rollspeed"; "pitchspeed"; "yawspeed"] []%Z "attitude_quaternion_encode" ["time_boot_ms"; "q1"; "q2"; "q3"; "q4"; "rollspeed"; "pitchspeed"; "yawspeed"];
  Method "local_position_ned_send" ["time_boot_ms"; "x"; "y"; "z"; "vx"; "vy"; "vz"] []%Z "local_position_ned_encode" ["time_boot_ms"; "x"; "y"; "z"; "vx"; "vy"; "vz"];
  Method "global_position_int_send" ["time_boot_ms"; "lat"; "lon"; "alt"; "relative_alt"; "bottom_clearnce"; "depth"; "vx"; "vy"; "vz"; "hdg"] []%Z "global_position_int_encode" ["time_boot_ms"; "lat"; "lon"; "alt"; "relative_alt"; "bottom_clearnce"; "depth"; "vx"; "vy"; "vz"; "hdg"];
  Method "rc_channels_scaled_send" ["time_boot_ms"; "port"; "chan1_scaled"; "chan2_scaled"; "chan3_scaled"; "chan4_scaled"; "chan5_scaled"; "chan6_scaled"; "chan7_scaled"; "chan8_scaled"; "rssi"] []%Z "rc_channels_scaled_encode" ["time_boot_ms"; "port"; "chan1_scaled"; "chan2_scaled"; "chan3_scaled"; "chan4_scaled"; "chan5_scaled"; "chan6_scaled"; "chan7_scaled"; "chan8_scaled"; "rssi"];
  Method "rc_channels_raw_send" ["time_boot_ms"; "port"; "chan1_raw"; "chan2_raw"; "chan3_raw"; "chan4_raw"; "chan5_raw"; "chan6_raw"; "chan7_raw"; "chan8_raw"; "rssi"] []%Z "rc_channels_raw_encode" ["time_boot_ms"; "port"; "chan1_raw"; "chan2_raw"; "chan3_raw"; "chan4_raw"; "chan5_raw"; "chan6_raw"; "chan7_raw"; "chan8_raw"; "rssi"];
  Method "servo_output_raw_send" ["time_usec"; "port"; "servo1_raw"; "servo2_raw"; "servo3_raw"; "servo4_raw"; "servo5_raw"; "servo6_raw"; "servo7_raw"; "servo8_raw"] []%Z "servo_output_raw_encode" ["time_usec"; "port"; "servo1_raw"; "servo2_raw"; "servo3_raw"; "servo4_raw"; "servo5_raw"; "servo6_raw"; "servo7_raw"; "servo8_raw"];
  Method "mission_request_partial_list_send" ["target_system"; "target_component"; "start_index"; "end_index"] []%Z "mission_request_partial_list_encode" ["target_system"; "target_component"; "start_index"; "end_index"];
  Method "mission_write_partial_list_send" ["target_system"; "target_component"; "start_index"; "end_index"] []%Z "mission_write_partial_list_encode" ["target_system"; "target_component"; "start_index"; "end_index"];
  Method "mission_item_send" ["target_system"; "target_component"; "seq"; "frame"; "command"; "current"; "autocontinue"; "param1"; "param2"; "param3"; "param4"; "x"; "y"; "z"] []%Z "mission_item_encode" ["target_system"; "target_component"; "seq"; "frame"; "command"; "current"; "autocontinue"; "param1"; "param2"; "param3"; "param4"; "x"; "y"; "z"];
  Method "mission_request_send" ["target_system"; "target_component"; "seq"] []%Z "mission_request_encode" ["target_system"; "target_component"; "seq"];
  Method "mission_set_current_send" ["target_system"; "target_component"; "seq"] []%Z "mission_set_current_encode" ["target_system"; "target_component"; "seq"];
  Method "mission_current_send" ["seq"] []%Z "mission_current_encode" ["seq"];
  Method "mission_request_list_send" ["target_system"; "target_component"] []%Z "mission_request_list_encode" ["target_system"; "target_component"];
  Method "mission_count_send" ["target_system"; "target_component"; "count"] []%Z "mission_count_encode" ["target_system"; "target_component"; "count"];
  Method "mission_clear_all_send" ["target_system"; "target_component"] []%Z "mission_clear_all_encode" ["target_system"; "target_component"];
  Method "mission_item_reached_send" ["seq"] []%Z "mission_item_reached_encode" ["seq"];
  Method "mission_ack_send" ["target_system"; "target_component"; "type"] []%Z "mission_ack_encode" ["target_system"; "target_component"; "type"];
  Method "set_gps_global_origin_send" ["target_system"; "latitude"; "longitude"; "altitude"] []%Z "set_gps_global_origin_encode" ["target_system"; "latitude"; "longitude"; "altitude"];
  Method "gps_global_origin_send" ["latitude"; "longitude"; "altitude"] []%Z "gps_global_origin_encode" ["latitude"; "longitude"; "altitude"];
  Method "param_map_rc_send" ["target_system"; "target_component"; "param_id"; "param_index"; "parameter_rc_channel_index"; "param_value0"; "scale"; "param_value_min"; "param_value_max"] []%Z "param_map_rc_encode" ["target_system"; "target_component"; "param_id"; "param_index"; "parameter_rc_channel_index"; "param_value0"; "scale"; "param_value_min"; "param_value_max"];
  Method "safety_set_allowed_area_send" ["target_system"; "target_component"; "frame"; "p1x"; "p1y"; "p1z"; "p2x"; "p2y"; "p2z"] []%Z "safety_set_allowed_area_encode" ["target_system"; "target_component"; "frame"; "p1x"; "p1y"; "p1z"; "p2x"; "p2y"; "p2z"];
  Method "safety_allowed_area_send" ["frame"; "p1x"; "p1y"; "p1z"; "p2x"; "p2y"; "p2z"] []%Z "safety_allowed_area_encode" ["frame"; "p1x"; "p1y"; "p1z"; "p2x"; "p2y"; "p2z"];
  Method "attitude_quaternion_cov_send" ["time_boot_ms"; "q"; "rollspeed"; "pitchspeed"; "yawspeed"; "covariance"] []%Z "attitude_quaternion_cov_encode" ["time_boot_ms"; "q"; "rollspeed"; "pitchspeed"; "yawspeed"; "covariance"];
  Method "nav_controller_output_send" ["nav_roll"; "nav_pitch"; "nav_bearing"; "target_bearing"; "wp_dist"; "alt_error"; "aspd_error"; "xtrack_error"] []%Z "nav_controller_output_encode" ["nav_roll"; "nav_pitch"; "nav_bearing"; "target_bearing"; "wp_dist"; "alt_error"; "aspd_error"; "xtrack_error"];
  Method "global_position_int_cov_send" ["time_boot_ms"; "time_utc"; "estimator_type"; "lat"; "lon"; "alt"; "relative_alt"; "vx"; "vy"; "vz"; "covariance"] []%Z "global_position_int_cov_encode" ["time_boot_ms"; "time_utc"; "estimator_type"; "lat"; "lon"; "alt"; "relative_alt"; "vx"; "vy"; "vz"; "covariance"];
  Method "local_position_ned_cov_send" ["time_boot_ms"; "time_utc"; "estimator_type"; "x"; "y"; "z"; "vx"; "vy"; "vz"; "ax"; "ay"; "az"; "covariance"] []%Z "local_position_ned_cov_encode" ["time_boot_ms"; "time_utc"; "estimator_type"; "x"; "y"; "z"; "vx"; "vy"; "vz"; "ax"; "ay"; "az"; "covariance"];
  Method "rc_channels_send" ["time_boot_ms"; "chancount"; "chan1_raw"; "chan2_raw"; "chan3_raw"; "chan4_raw"; "chan5_raw"; "chan6_raw"; "chan7_raw"; "chan8_raw"; "chan9_raw"; "chan10_raw"; "chan11_raw"; "chan12_raw"; "chan13_raw"; "chan14_raw"; "chan15_raw"; "chan16_raw"; "chan17_raw"; "chan18_raw"; "rssi"] []%Z "rc_channels_encode" ["time_boot_ms"; "chancount"; "chan1_raw"; "chan2_raw"; "chan3_raw"; "chan4_raw"; "chan5_raw"; "chan6_raw"; "chan7_raw"; "chan8_raw"; "chan9_raw"; "chan10_raw"; "chan11_raw"; "chan12_raw"; "chan13_raw"; "chan14_raw"; "chan15_raw"; "chan16_raw"; "chan17_raw"; "chan18_raw"; "rssi"];
  Method "request_data_stream_send" ["target_system"; "target_component"; "req_stream_id"; "req_message_rate"; "start_stop"] []%Z "request_data_stream_encode" ["target_system"; "target_component"; "req_stream_id"; "req_message_rate"; "start_stop"];
  Method "data_stream_send" ["stream_id"; "message_rate"; "on_off"] []%Z "data_stream_encode" ["stream_id"; "message_rate"; "on_off"];
  Method "manual_control_send" ["target"; "x"; "y"; "z"; "r"; "buttons"] []%Z "manual_control_encode" ["target"; "x"; "y"; "z"; "r"; "buttons"];
  Method "rc_channels_override_send" ["target_system"; "target_component"; "chan1_raw"; "chan2_raw"; "chan3_raw"; "chan4_raw"; "chan5_raw"; "chan6_raw"; "chan7_raw"; "chan8_raw"] []%Z "rc_channels_override_encode" ["target_system"; "target_component"; "chan1_raw"; "chan2_raw"; "chan3_raw"; "chan4_raw"; "chan5_raw"; "chan6_raw"; "chan7_raw"; "chan8_raw"];
  Method "mission_item_int_send" ["target_system"; "target_component"; "seq"; "frame"; "command"; "current"; "autocontinue"; "param1"; "param2"; "param3"; "param4"; "x"; "y"; "z"] []%Z "mission_item_int_encode" ["target_system"; "target_component"; "seq"; "frame"; "command"; "current"; "autocontinue"; "param1"; "param2"; "param3"; "param4"; "x"; "y"; "z"];
  Method "vfr_hud_send" ["airspeed"; "groundspeed"; "heading"; "throttle"; "alt"; "climb"] []%Z "vfr_hud_encode" ["airspeed"; "groundspeed"; "heading"; "throttle"; "alt"; "climb"];
  Method "command_int_send" ["target_system"; "target_component"; "frame"; "command"; "current"; "autocontinue"; "param1"; "param2"; "param3"; "param4"; "x"; "y"; "z"] []%Z "command_int_encode" ["target_system"; "target_component"; "frame"; "command"; "current"; "autocontinue"; "param1"; "param2"; "param3"; "param4"; "x"; "y"; "z"];
  Method "command_long_send" ["target_system"; "target_component"; "command"; "confirmation"; "param1"; "param2"; "param3"; "param4"; "param5"; "param6"; "param7"] []%Z "command_long_encode" ["target_system"; "target_component"; "command"; "confirmation"; "param1"; "param2"; "param3"; "param4"; "param5"; "param6"; "param7"];
  Method "command_ack_send" ["command"; "result"] []%Z "command_ack_encode" ["command"; "result"];
  Method "manual_setpoint_send" ["time_boot_ms"; "roll"; "pitch"; "yaw"; "thrust"; "mode_switch"; "manual_override_switch"] []%Z "manual_setpoint_encode" ["time_boot_ms"; "roll"; "pitch"; "yaw"; "thrust"; "mode_switch"; "manual_override_switch"];
  Method "set_attitude_target_send" ["time_boot_ms"; "target_system"; "target_component"; "type_mask"; "q"; "body_roll_rate"; "body_pitch_rate"; "body_yaw_rate"; "thrust"] []%Z "set_attitude_target_encode" ["time_boot_ms"; "target_system"; "target_component"; "type_mask"; "q"; "body_roll_rate"; "body_pitch_rate"; "body_yaw_rate"; "thrust"];
  Method "attitude_target_send" ["time_boot_ms"; "type_mask"; "q"; "body_roll_rate"; "body_pitch_rate"; "body_yaw_rate"; "thrust"] []%Z "attitude_target_encode" ["time_boot_ms"; "type_mask"; "q"; "body_roll_rate"; "body_pitch_rate"; "body_yaw_rate"; "thrust"];
  Method "set_position_target_local_ned_send" ["time_boot_ms"; "target_system"; "target_component"; "coordinate_frame"; "type_mask"; "x"; "y"; "z"; "vx"; "vy"; "vz"; "afx"; "afy"; "afz"; "yaw"; "yaw_rate"] []%Z "set_position_target_local_ned_encode" ["time_boot_ms"; "target_system"; "target_component"; "coordinate_frame"; "type_mask"; "x"; "y"; "z"; "vx"; "vy"; "vz"; "afx"; "afy"; "afz"; "yaw"; "yaw_rate"];
  Method "position_target_local_ned_send" ["time_boot_ms"; "coordinate_frame"; "type_mask"; "x"; "y"; "z"; "vx"; "vy"; "vz"; "afx"; "afy"; "afz"; "yaw"; "yaw_rate"] []%Z "position_target_local_ned_encode" ["time_boot_ms"; "coordinate_frame"; "type_mask"; "x"; "y"; "z"; "vx"; "vy"; "vz"; "afx"; "afy"; "afz"; "yaw"; "yaw_rate"];
  Method "set_position_target_global_int_send" ["time_boot_ms"; "target_system"; "target_component"; "coordinate_frame"; "type_mask"; "lat_int"; "lon_int"; "alt"; "vx"; "vy"; "vz"; "afx"; "afy"; "afz"; "yaw"; "yaw_rate"] []%Z "set_position_target_global_int_encode" ["time_boot_ms"; "target_system"; "target_component"; "coordinate_frame"; "type_mask"; "lat_int"; "lon_int"; "alt"; "vx"; "vy"; "vz"; "afx"; "afy"; "afz"; "yaw"; "yaw_rate"];
  Method "position_target_global_int_send" ["time_boot_ms"; "coordinate_frame"; "type_mask"; "lat_int"; "lon_int"; "alt"; "vx"; "vy"; "vz"; "afx"; "afy"; "afz"; "yaw"; "yaw_rate"] []%Z "position_target_global_int_encode" ["time_boot_ms"; "coordinate_frame"; "type_mask"; "lat_int"; "lon_int"; "alt"; "vx"; "vy"; "vz"; "afx"; "afy"; "afz"; "yaw"; "yaw_rate"];
  Method "local_position_ned_system_global_offset_send" ["time_boot_ms"; "x"; "y"; "z"; "roll"; "pitch"; "yaw"] []%Z "local_position_ned_system_global_offset_encode" ["time_boot_ms"; "x"; "y"; "z"; "roll"; "pitch"; "yaw"];
  Method "hil_state_send" ["time_usec"; "roll"; "pitch"; "yaw"; "rollspeed"; "pitchspeed"; "yawspeed"; "lat"; "lon"; "alt"; "vx"; "vy"; "vz"; "xacc"; "yacc"; "zacc"] []%Z "hil_state_encode" ["time_usec"; "roll"; "pitch"; "yaw"; "rollspeed"; "pitchspeed"; "yawspeed"; "lat"; "lon"; "alt"; "vx"; "vy"; "vz"; "xacc"; "yacc"; "zacc"];
  Method "hil_controls_send" ["time_usec"; "roll_ailerons"; "pitch_elevator"; "yaw_rudder"; "throttle"; "aux1"; "aux2"; "aux3"; "aux4"; "mode"; "nav_mode"] []%Z "hil_controls_encode" ["time_usec"; "roll_ailerons"; "pitch_elevator"; "yaw_rudder"; "throttle"; "aux1"; "aux2"; "aux3"; "aux4"; "mode"; "nav_mode"];
  Method "hil_rc_inputs_raw_send" ["time_usec"; "chan1_raw"; "chan2_raw"; "chan3_raw"; "chan4_raw"; "chan5_raw"; "chan6_raw"; "chan7_raw"; "chan8_raw"; "chan9_raw"; "chan10_raw"; "chan11_raw"; "chan12_raw"; "rssi"] []%Z "hil_rc_inputs_raw_encode" ["time_usec"; "chan1_raw"; "chan2_raw"; "chan3_raw"; "chan4_raw"; "chan5_raw"; "chan6_raw"; "chan7_raw"; "chan8_raw"; "chan9_raw"; "chan10_raw"; "chan11_raw"; "chan12_raw"; "rssi"];
  Method "optical_flow_send" ["time_usec"; "sensor_id"; "flow_x"; "flow_y"; "flow_comp_m_x"; "flow_comp_m_y"; "quality"; "ground_distance"] []%Z "optical_flow_encode" ["time_usec"; "sensor_id"; "flow_x"; "flow_y"; "flow_comp_m_x"; "flow_comp_m_y"; "quality"; "ground_distance"];
  Method "global_vision_position_estimate_send" ["usec"; "x"; "y"; "z"; "roll"; "pitch"; "yaw"] []%Z "global_vision_position_estimate_encode" ["usec"; "x"; "y"; "z"; "roll"; "pitch"; "yaw"];
  Method "vision_position_estimate_send" ["usec"; "x"; "y"; "z"; "roll"; "pitch"; "yaw"] []%Z "vision_position_estimate_encode" ["usec"; "x"; "y"; "z"; "roll"; "pitch"; "yaw"];
  Method "vision_speed_estimate_send" ["usec"; "x"; "y"; "z"] []%Z "vision_speed_estimate_encode" ["usec"; "x"; "y"; "z"];
  Method "vicon_position_estimate_send" ["usec"; "x"; "y"; "z"; "roll"; "pitch"; "yaw"] []%Z "vicon_position_estimate_encode" ["usec"; "x"; "y"; "z"; "roll"; "pitch"; "yaw"];
  Method "highres_imu_send" ["time_usec"; "xacc"; "yacc"; "zacc"; "xgyro"; "ygyro"; "zgyro"; "xmag"; "ymag"; "zmag"; "abs_pressure"; "diff_pressure"; "pressure_alt"; "temperature"; "fields_updated"] []%Z "highres_imu_encode" ["time_usec"; "xacc"; "yacc"; "zacc"; "xgyro"; "ygyro"; "zgyro"; "xmag"; "ymag"; "zmag"; "abs_pressure"; "diff_pressure"; "pressure_alt"; "temperature"; "fields_updated"];
  Method "optical_flow_rad_send" ["time_usec"; "sensor_id"; "integration_time_us"; "integrated_x"; "integrated_y"; "integrated_xgyro"; "integrated_ygyro"; "integrated_zgyro"; "temperature"; "quality"; "time_delta_distance_us"; "distance"] []%Z "optical_flow_rad_encode" ["time_usec"; "sensor_id"; "integration_time_us"; "integrated_x"; "integrated_y"; "integrated_xgyro"; "integrated_ygyro"; "integrated_zgyro"; "temperature"; "quality"; "time_delta_distance_us"; "distance"];
  Method "hil_sensor_send" ["time_usec"; "xacc"; "yacc"; "zacc"; "xgyro"; "ygyro"; "zgyro"; "xmag"; "ymag"; "zmag"; "abs_pressure"; "diff_pressure"; "pressure_alt"; "temperature"; "fields_updated"] []%Z "hil_sensor_encode" ["time_usec"; "xacc"; "yacc"; "zacc"; "xgyro"; "ygyro"; "zgyro"; "xmag"; "ymag"; "zmag"; "abs_pressure"; "diff_pressure"; "pressure_alt"; "temperature"; "fields_updated"];
  Method "sim_state_send" ["q1"; "q2"; "q3"; "q4"; "roll"; "pitch"; "yaw"; "xacc"; "yacc"; "zacc"; "xgyro"; "ygyro"; "zgyro"; "lat"; "lon"; "alt"; "std_dev_horz"; "std_dev_vert"; "vn"; "ve"; "vd"] []%Z "sim_state_encode" ["q1"; "q2"; "q3"; "q4"; "roll"; "pitch"; "yaw"; "xacc"; "yacc"; "zacc"; "xgyro"; "ygyro"; "zgyro"; "lat"; "lon"; "alt"; "std_dev_horz"; "std_dev_vert"; "vn"; "ve"; "vd"];
  Method "radio_status_send" ["rssi"; "remrssi"; "txbuf"; "noise"; "remnoise"; "rxerrors"; "fixed"] []%Z "radio_status_encode" ["rssi"; "remrssi"; "txbuf"; "noise"; "remnoise"; "rxerrors"; "fixed"];
  Method "file_transfer_protocol_send" ["target_network"; "target_system"; "target_component"; "payload"] []%Z "file_transfer_protocol_encode" ["target_network"; "target_system"; "target_component"; "payload"];
  Method "timesync_send" ["tc1"; "ts1"] []%Z "timesync_encode" ["tc1"; "ts1"];
  Method "camera_trigger_send" ["time_usec"; "seq"] []%Z "camera_trigger_encode" ["time_usec"; "seq"];
  Method "hil_gps_send" ["time_usec"; "fix_type"; "lat"; "lon"; "alt"; "eph"; "epv"; "vel"; "vn"; "ve"; "vd"; "cog"; "satellites_visible"] []%Z "hil_gps_encode" ["time_usec"; "fix_type"; "lat"; "lon"; "alt"; "eph"; "epv"; "vel"; "vn"; "ve"; "vd"; "cog"; "satellites_visible"];
  Method "hil_optical_flow_send" ["time_usec"; "sensor_id"; "integration_time_us"; "integrated_x"; "integrated_y"; "integrated_xgyro"; "integrated_ygyro"; "integrated_zgyro"; "temperature"; "quality"; "time_delta_distance_us"; "distance"] []%Z "hil_optical_flow_encode" ["time_usec"; "sensor_id"; "integration_time_us"; "integrated_x"; "integrated_y"; "integrated_xgyro"; "integrated_ygyro"; "integrated_zgyro"; "temperature"; "quality"; "time_delta_distance_us"; "distance"];
  Method "hil_state_quaternion_send" ["time_usec"; "attitude_quaternion"; "rollspeed"; "pitchspeed"; "yawspeed"; "lat"; "lon"; "alt"; "vx"; "vy"; "vz"; "ind_airspeed"; "true_airspeed"; "xacc"; "yacc"; "zacc"] []%Z "hil_state_quaternion_encode" ["time_usec"; "attitude_quaternion"; "rollspeed"; "pitchspeed"; "yawspeed"; "lat"; "lon"; "alt"; "vx"; "vy"; "vz"; "ind_airspeed"; "true_airspeed"; "xacc"; "yacc"; "zacc"];
  Method "scaled_imu2_send" ["time_boot_ms"; "xacc"; "yacc"; "zacc"; "xgyro"; "ygyro"; "zgyro"; "xmag"; "ymag"; "zmag"] []%Z "scaled_imu2_encode" ["time_boot_ms"; "xacc"; "yacc"; "zacc"; "xgyro"; "ygyro"; "zgyro"; "xmag"; "ymag"; "zmag"];
  Method "log_request_list_send" ["target_system"; "target_component"; "start"; "end"] []%Z "log_request_list_encode" ["target_system"; "target_component"; "start"; "end"];
  Method "log_entry_send" ["id"; "num_logs"; "last_log_num"; "time_utc"; "size"] []%Z "log_entry_encode" ["id"; "num_logs"; "last_log_num"; "time_utc"; "size"];
  Method "log_request_data_send" ["target_system"; "target_component"; "id"; "ofs"; "count"] []%Z "log_request_data_encode" ["target_system"; "target_component"; "id"; "ofs"; "count"];
  Method "log_data_send" ["id"; "ofs"; "count"; "data"] []%Z "log_data_encode" ["id"; "ofs"; "count"; "data"];
  Method "log_erase_send" ["target_system"; "target_component"] []%Z "log_erase_encode" ["target_system"; "target_component"];
  Method "log_request_end_send" ["target_system"; "target_component"] []%Z "log_request_end_encode" ["target_system"; "target_component"];
  Method "gps_inject_data_send" ["target_system"; "target_component"; "len"; "data"] []%Z "gps_inject_data_encode" ["target_system"; "target_component"; "len"; "data"];
  Method "gps2_raw_send" ["time_usec"; "fix_type"; "lat"; "lon"; "alt"; "eph"; "epv"; "vel"; "cog"; "satellites_visible"; "dgps_numch"; "dgps_age"] []%Z "gps2_raw_encode" ["time_usec"; "fix_type"; "lat"; "lon"; "alt"; "eph"; "epv"; "vel"; "cog"; "satellites_visible"; "dgps_numch"; "dgps_age"];
  Method "power_status_send" ["Vcc"; "Vservo"; "flags"] []%Z "power_status_encode" ["Vcc"; "Vservo"; "flags"];
  Method "serial_control_send" ["device"; "flags"; "timeout"; "baudrate"; "count"; "data"] []%Z "serial_control_encode" ["device"; "flags"; "timeout"; "baudrate"; "count"; "data"];
  Method "gps_rtk_send" ["time_last_baseline_ms"; "rtk_receiver_id"; "wn"; "tow"; "rtk_health"; "rtk_rate"; "nsats"; "baseline_coords_type"; "baseline_a_mm"; "baseline_b_mm"; "baseline_c_mm"; "accuracy"; "iar_num_hypotheses"] []%Z "gps_rtk_encode" ["time_last_baseline_ms"; "rtk_receiver_id"; "wn"; "tow"; "rtk_health"; "rtk_rate"; "nsats"; "baseline_coords_type"; "baseline_a_mm"; "baseline_b_mm"; "baseline_c_mm"; "accuracy"; "iar_num_hypotheses"];
  Method "gps2_rtk_send" ["time_last_baseline_ms"; "rtk_receiver_id"; "wn"; "tow"; "rtk_health"; "rtk_rate"; "nsats"; "baseline_coords_type"; "baseline_a_mm"; "baseline_b_mm"; "baseline_c_mm"; "accuracy"; "iar_num_hypotheses"] []%Z "gps2_rtk_encode" ["time_last_baseline_ms"; "rtk_receiver_id"; "wn"; "tow"; "rtk_health"; "rtk_rate"; "nsats"; "baseline_coords_type"; "baseline_a_mm"; "baseline_b_mm"; "baseline_c_mm"; "accuracy"; "iar_num_hypotheses"];
  Method "scaled_imu3_send" ["time_boot_ms"; "xacc"; "yacc"; "zacc"; "xgyro"; "ygyro"; "zgyro"; "xmag"; "ymag"; "zmag"] []%Z "scaled_imu3_encode" ["time_boot_ms"; "xacc"; "yacc"; "zacc"; "xgyro"; "ygyro"; "zgyro"; "xmag"; "ymag"; "zmag"];
  Method "data_transmission_handshake_send" ["type"; "size"; "width"; "height"; "packets"; "payload"; "jpg_quality"] []%Z "data_transmission_handshake_encode" ["type"; "size"; "width"; "height"; "packets"; "payload"; "jpg_quality"];
  Method "encapsulated_data_send" ["seqnr"; "data"] []%Z "encapsulated_data_encode" ["seqnr"; "data"];
  Method "distance_sensor_send" ["time_boot_ms"; "min_distance"; "max_distance"; "current_distance"; "type"; "id"; "orientation"; "covariance"] []%Z "distance_sensor_encode" ["time_boot_ms"; "min_distance"; "max_distance"; "current_distance"; "type"; "id"; "orientation"; "covariance"];
  Method "terrain_request_send" ["lat"; "lon"; "grid_spacing"; "mask"] []%Z "terrain_request_encode" ["lat"; "lon"; "grid_spacing"; "mask"];
  Method "terrain_data_send" ["lat"; "lon"; "grid_spacing"; "gridbit"; "data"] []%Z "terrain_data_encode" ["lat"; "lon"; "grid_spacing"; "gridbit"; "data"];
  Method "terrain_check_send" ["lat"; "lon"] []%Z "terrain_check_encode" ["lat"; "lon"];
  Method "terrain_report_send" ["lat"; "lon"; "spacing"; "terrain_height"; "current_height"; "pending"; "loaded"] []%Z "terrain_report_encode" ["lat"; "lon"; "spacing"; "terrain_height"; "current_height"; "pending"; "loaded"];
  Method "scaled_pressure2_send" ["time_boot_ms"; "press_abs"; "press_diff"; "temperature"] []%Z "scaled_pressure2_encode" ["time_boot_ms"; "press_abs"; "press_diff"; "temperature"];
  Method "att_pos_mocap_send" ["time_usec"; "q"; "x"; "y"; "z"] []%Z "att_pos_mocap_encode" ["time_usec"; "q"; "x"; "y"; "z"];
  Method "set_actuator_control_target_send" ["time_usec"; "group_mlx"; "target_system"; "target_component"; "controls"] []%Z "set_actuator_control_target_encode" ["time_usec"; "group_mlx"; "target_system"; "target_component"; "controls"];
  Method "actuator_control_target_send" ["time_usec"; "group_mlx"; "controls"] []%Z "actuator_control_target_encode" ["time_usec"; "group_mlx"; "controls"];
  Method "altitude_send" ["time_usec"; "altitude_monotonic"; "altitude_amsl"; "altitude_local"; "altitude_relative"; "altitude_terrain"; "bottom_clearance"] []%Z "altitude_encode" ["time_usec"; "altitude_monotonic"; "altitude_amsl"; "altitude_local"; "altitude_relative"; "altitude_terrain"; "bottom_clearance"];
  Method "resource_request_send" ["request_id"; "uri_type"; "uri"; "transfer_type"; "storage"] []%Z "resource_request_encode" ["request_id"; "uri_type"; "uri"; "transfer_type"; "storage"];
  Method "scaled_pressure3_send" ["time_boot_ms"; "press_abs"; "press_diff"; "temperature"] []%Z "scaled_pressure3_encode" ["time_boot_ms"; "press_abs"; "press_diff"; "temperature"];
  Method "control_system_state_send" ["time_usec"; "x_acc"; "y_acc"; "z_acc"; "x_vel"; "y_vel"; "z_vel"; "x_pos"; "y_pos"; "z_pos"; "airspeed"; "vel_variance"; "pos_variance"; "q"; "roll_rate"; "pitch_rate"; "yaw_rate"] []%Z "control_system_state_encode" ["time_usec"; "x_acc"; "y_acc"; "z_acc"; "x_vel"; "y_vel"; "z_vel"; "x_pos"; "y_pos"; "z_pos"; "airspeed"; "vel_variance"; "pos_variance"; "q"; "roll_rate"; "pitch_rate"; "yaw_rate"];
  Method "battery_status_send" ["id"; "battery_function"; "type"; "temperature"; "voltages"; "current_battery"; "current_consumed"; "energy_consumed"; "battery_remaining"] []%Z "battery_status_encode" ["id"; "battery_function"; "type"; "temperature"; "voltages"; "current_battery"; "current_consumed"; "energy_consumed"; "battery_remaining"];
  Method "autopilot_version_send" ["capabilities"; "main_sw_build_time"; "main_sw_version"; "mavlink_sw_version"; "os_sw_version"; "board_version"; "main_custom_version"; "mavlink_custom_version"; "os_custom_version"; "vendor_id"; "product_id"; "uid"] []%Z "autopilot_version_encode" ["capabilities"; "main_sw_build_time"; "main_sw_version"; "mavlink_sw_version"; "os_sw_version"; "board_version"; "main_custom_version"; "mavlink_custom_version"; "os_custom_version"; "vendor_id"; "product_id"; "uid"];
  Method "landing_target_send" ["time_usec"; "target_num"; "frame"; "angle_x"; "angle_y"; "distance"; "size_x"; "size_y"] []%Z "landing_target_encode" ["time_usec"; "target_num"; "frame"; "angle_x"; "angle_y"; "distance"; "size_x"; "size_y"];
  Method "vibration_send" ["time_usec"; "vibration_x"; "vibration_y"; "vibration_z"; "clipping_0"; "clipping_1"; "clipping_2"] []%Z "vibration_encode" ["time_usec"; "vibration_x"; "vibration_y"; "vibration_z"; "clipping_0"; "clipping_1"; "clipping_2"];
  Method "home_position_send" ["latitude"; "longitude"; "altitude"; "x"; "y"; "z"; "q"; "approach_x"; "approach_y"; "approach_z"] []%Z "home_position_encode" ["latitude"; "longitude"; "altitude"; "x"; "y"; "z"; "q"; "approach_x"; "approach_y"; "approach_z"];
  Method "set_home_position_send" ["target_system"; "latitude"; "longitude"; "altitude"; "x"; "y"; "z"; "q"; "approach_x"; "approach_y"; "approach_z"] []%Z "set_home_position_encode" ["target_system"; "latitude"; "longitude"; "altitude"; "x"; "y"; "z"; "q"; "approach_x"; "approach_y"; "approach_z"];
  Method "message_interval_send" ["message_id"; "interval_us"] []%Z "message_interval_encode" ["message_id"; "interval_us"];
  Method "extended_sys_state_send" ["vtol_state"; "landed_state"] []%Z "extended_sys_state_encode" ["vtol_state"; "landed_state"];
  Method "adsb_vehicle_send" ["ICAO_address"; "lat"; "lon"; "altitude_type"; "altitude"; "heading"; "hor_velocity"; "ver_velocity"; "callsign"; "emitter_type"; "tslc"; "flags"; "squawk"] []%Z "adsb_vehicle_encode" ["ICAO_address"; "lat"; "lon"; "altitude_type"; "altitude"; "heading"; "hor_velocity"; "ver_velocity"; "callsign"; "emitter_type"; "tslc"; "flags"; "squawk"];
  Method "v2_extension_send" ["target_network"; "target_system"; "target_component"; "message_type"; "payload"] []%Z "v2_extension_encode" ["target_network"; "target_system"; "target_component"; "message_type"; "payload"];
  Method "memory_vect_send" ["address"; "ver"; "type"; "value"] []%Z "memory_vect_encode" ["address"; "ver"; "type"; "value"];
  Method "debug_vect_send" ["name"; "time_usec"; "x"; "y"; "z"] []%Z "debug_vect_encode" ["name"; "time_usec"; "x"; "y"; "z"];
  Method "named_value_float_send" ["time_boot_ms"; "name"; "value"] []%Z "named_value_float_encode" ["time_boot_ms"; "name"; "value"];
  Method "named_value_int_send" ["time_boot_ms"; "name"; "value"] []%Z "named_value_int_encode" ["time_boot_ms"; "name"; "value"];
  Method "statustext_send" ["severity"; "text"] []%Z "statustext_encode" ["severity"; "text"];
  Method "debug_send" ["time_boot_ms"; "ind"; "value"] []%Z "debug_encode" ["time_boot_ms"; "ind"; "value"];
  Method "altimeter_sensor_send" ["time_boot_ms"; "Altitude_front"; "Altitude_back"] []%Z "altimeter_sensor_encode" ["time_boot_ms"; "Altitude_front"; "Altitude_back"];
  Method "scaled_svs_send" ["time_boot_ms"; "Speed_of_Sound"; "Depth"; "Temperature"; "Status"; "Reserved"] []%Z "scaled_svs_encode" ["time_boot_ms"; "Speed_of_Sound"; "Depth"; "Temperature"; "Status"; "Reserved"];
  Method "ctd_status_send" ["time_boot_ms"; "Conductivity"; "Depth"; "Temperature"; "Status"; "Reserved"] []%Z "ctd_status_encode" ["time_boot_ms"; "Conductivity"; "Depth"; "Temperature"; "Status"; "Reserved"];
  Method "motor_status_send" ["time_boot_ms"; "motor_num"; "rpm"; "voltage"; "current"; "Status"; "Fault"; "temperature"; "pressure"] []%Z "motor_status_encode" ["time_boot_ms"; "motor_num"; "rpm"; "voltage"; "current"; "Status"; "Fault"; "temperature"; "pressure"];
  Method "rf_modem_status_send" ["time_boot_ms"; "Bit_Rate"; "Status"; "current"; "Reserved"; "Reserved2"] []%Z "rf_modem_status_encode" ["time_boot_ms"; "Bit_Rate"; "Status"; "current"; "Reserved"; "Reserved2"];
  Method "system_onoff_req_send" ["time_boot_ms"; "status"] []%Z "system_onoff_req_encode" ["time_boot_ms"; "status"];
  Method "system_onoff_status_send" ["time_boot_ms"; "status"] []%Z "system_onoff_status_encode" ["time_boot_ms"; "status"];
  Method "chamber_status_send" ["time_boot_ms"; "chamber_num"; "pressure"; "temperature"; "humidity"] []%Z "chamber_status_encode" ["time_boot_ms"; "chamber_num"; "pressure"; "temperature"; "humidity"];
  Method "task_status_send" ["taskID"; "task_status"; "time"; "task_time"; "task_count"; "parse_success_count"; "parse_error_count"; "interupt_count"; "rst_count"; "err1"; "err2"] []%Z "task_status_encode" ["taskID"; "task_status"; "time"; "task_time"; "task_count"; "parse_success_count"; "parse_error_count"; "interupt_count"; "rst_count"; "err1"; "err2"];
  Method "param_est_test_send" ["time_boot_ms_imu"; "time_boot_ms_io"; "gyro_x"; "gyro_y"; "gyro_z"; "gyro_dot_x"; "gyro_dot_y"; "gyro_dot_z"; "accel_x"; "accel_y"; "accel_z"; "accel_no_g_x"; "accel_no_g_y"; "accel_no_g_z"; "dvl_x"; "dvl_y"; "dvl_z"; "roll"; "pitch"; "yaw"; "motor1_rpm"; "motor2_rpm"; "motor3_rpm"; "motor4_rpm"; "motor5_rpm"; "motor6_rpm"; "motor7_rpm"] []%Z "param_est_test_encode" ["time_boot_ms_imu"; "time_boot_ms_io"; "gyro_x"; "gyro_y"; "gyro_z"; "gyro_dot_x"; "gyro_dot_y"; "gyro_dot_z"; "accel_x"; "accel_y"; "accel_z"; "accel_no_g_x"; "accel_no_g_y"; "accel_no_g_z"; "dvl_x"; "dvl_y"; "dvl_z"; "roll"; "pitch"; "yaw"; "motor1_rpm"; "motor2_rpm"; "motor3_rpm"; "motor4_rpm"; "motor5_rpm"; "motor6_rpm"; "motor7_rpm"];
  Method "motor_cmd_send" ["mode"; "speed"] []%Z "motor_cmd_encode" ["mode"; "speed"];
  Method "bathymetry_send" ["time_usec"; "depth"; "altitude"; "distance"; "range_from_body"; "seabed_phi"; "seabed_theta"] []%Z "bathymetry_encode" ["time_usec"; "depth"; "altitude"; "distance"; "range_from_body"; "seabed_phi"; "seabed_theta"];
  Method "power_consumption_motors_send" ["time_boot_ms"; "current_ml"; "current_mr"; "current_p"; "current_yb"; "current_yf"; "current_wl"; "current_wr"; "battery_voltage"] []%Z "power_consumption_motors_encode" ["time_boot_ms"; "current_ml"; "current_mr"; "current_p"; "current_yb"; "current_yf"; "current_wl"; "current_wr"; "battery_voltage"];
  Method "power_consumption_2_send" ["time_boot_ms"; "current_1"; "voltage_1"; "current_2"; "voltage_2"; "current_3"; "voltage_3"; "current_4"; "voltage_4"] []%Z "power_consumption_2_encode" ["time_boot_ms"; "current_1"; "voltage_1"; "current_2"; "voltage_2"; "current_3"; "voltage_3"; "current_4"; "voltage_4"];
  Method "system_status_2_send" ["time_boot_ms"; "hc_mode"; "hc_system_status"; "hc_err_id"; "debug1"; "debug2"] []%Z "system_status_2_encode" ["time_boot_ms"; "hc_mode"; "hc_system_status"; "hc_err_id"; "debug1"; "debug2"];
  Method "gps_timing_send" ["time_boot_ms"; "tow_ms"; "tow_ns"; "accuracy"; "local_time_s"; "gps_fix"; "rtc_month"; "rtc_day"] []%Z "gps_timing_encode" ["time_boot_ms"; "tow_ms"; "tow_ns"; "accuracy"; "local_time_s"; "gps_fix"; "rtc_month"; "rtc_day"];
  Method "magnetometer_calibration_send" ["time_boot_ms"; "bias"; "scaling_matrix"] []%Z "magnetometer_calibration_encode" ["time_boot_ms"; "bias"; "scaling_matrix"];
  Method "algorithm_status_send" ["time_boot_ms"; "rate"; "nav_type"; "external_heading"; "calibrated"; "reset"; "hc_maneuver"; "hc_maneuver2"; "velocity_inov"; "attitude_cov"; "pos_cov"] []%Z "algorithm_status_encode" ["time_boot_ms"; "rate"; "nav_type"; "external_heading"; "calibrated"; "reset"; "hc_maneuver"; "hc_maneuver2"; "velocity_inov"; "attitude_cov"; "pos_cov"];
  Method "dvl_bt_raw_send" ["time_boot_ms"; "v1"; "v2"; "v3"; "v_err"; "wm_v1"; "wm_v2"; "wm_v3"; "wm_v4"; "range_1"; "range_2"; "range_3"; "range_4"; "good_beams_precentege"; "ensamble_number"] []%Z "dvl_bt_raw_encode" ["time_boot_ms"; "v1"; "v2"; "v3"; "v_err"; "wm_v1"; "wm_v2"; "wm_v3"; "wm_v4"; "range_1"; "range_2"; "range_3"; "range_4"; "good_beams_precentege"; "ensamble_number"];
  Method "dvl_bt_scaled_send" ["time_boot_ms"; "v1"; "v2"; "v3"; "altitude"; "distance"] []%Z "dvl_bt_scaled_encode" ["time_boot_ms"; "v1"; "v2"; "v3"; "altitude"; "distance"];
  Method "dvl_bt_highres_send" ["time_boot_ms"; "V1"; "V2"; "V3"; "V4"; "Bt_Dmg_1"; "Bt_Dmg_2"; "Bt_Dmg_3"; "Bt_Dmg_4"; "Ref_Frame"; "Wm_V1"; "Wm_V2"; "Wm_V3"; "Wm_V4"; "Svs"; "Slant_range"; "Axes_delta_range"; "Vertical_range"; "Percent_good_4bm"; "Percent_good_12bm"; "Percent_good_34bm"; "Bm_1_raw_range"; "Bm_2_raw_range"; "Bm_3_raw_range"; "Bm_4_raw_range"] []%Z "dvl_bt_highres_encode" ["time_boot_ms"; "V1"; "V2"; "V3"; "V4"; "Bt_Dmg_1"; "Bt_Dmg_2"; "Bt_Dmg_3"; "Bt_Dmg_4"; "Ref_Frame"; "Wm_V1"; "Wm_V2"; "Wm_V3"; "Wm_V4"; "Svs"; "Slant_range"; "Axes_delta_range"; "Vertical_range"; "Percent_good_4bm"; "Percent_good_12bm"; "Percent_good_34bm"; "Bm_1_raw_range"; "Bm_2_raw_range"; "Bm_3_raw_range"; "Bm_4_raw_range"];
  Method "dvl_wp_raw_send" ["time_boot_ms"; "Depth_Cell_ID"; "v1"; "v2"; "v3"; "v_err"; "Depth_Correlation_1"; "Depth_Correlation_2"; "Depth_Correlation_3"; "Depth_Correlation_4"; "Depth_Echo_Intensity_1"; "Depth_Echo_Intensity_2"; "Depth_Echo_Intensity_3"; "Depth_Echo_Intensity_4"; "Percent_Good_1"; "Percent_Good_2"; "Percent_Good_3"; "Percent_Good_4"; "status"] []%Z "dvl_wp_raw_encode" ["time_boot_ms"; "Depth_Cell_ID"; "v1"; "v2"; "v3"; "v_err"; "Depth_Correlation_1"; "Depth_Correlation_2"; "Depth_Correlation_3"; "Depth_Correlation_4"; "Depth_Echo_Intensity_1"; "Depth_Echo_Intensity_2"; "Depth_Echo_Intensity_3"; "Depth_Echo_Intensity_4"; "Percent_Good_1"; "Percent_Good_2"; "Percent_Good_3"; "Percent_Good_4"; "status"];
  Method "time_date_info_send" ["time_boot_ms"; "year"; "month"; "day"; "hours"; "minutes"; "seconds"; "millisec"] []%Z "time_date_info_encode" ["time_boot_ms"; "year"; "month"; "day"; "hours"; "minutes"; "seconds"; "millisec"];
  Method "pinger_data_send" ["time_boot_ms"; "range"; "azimuth"] []%Z "pinger_data_encode" ["time_boot_ms"; "range"; "azimuth"];
  Method "hc_acoustic_pos_send" ["time_boot_ms"; "range"; "azimuth"; "lat_1"; "lon_1"; "tow_1"] []%Z "hc_acoustic_pos_encode" ["time_boot_ms"; "range"; "azimuth"; "lat_1"; "lon_1"; "tow_1"];
  Method "debug_msg_1_send" ["time_boot_ms"; "debug_1_1"; "debug_1_2"; "debug_1_3"; "debug_1_4"; "debug_1_5"; "debug_1_6"] []%Z "debug_msg_1_encode" ["time_boot_ms"; "debug_1_1"; "debug_1_2"; "debug_1_3"; "debug_1_4"; "debug_1_5"; "debug_1_6"];
  Method "hc_acoustic_channel_send" ["time_boot_ms"; "mpd"; "psnr"; "agc"; "spd"; "crc_pass"; "ccerr"; "source"; "destination"] []%Z "hc_acoustic_channel_encode" ["time_boot_ms"; "mpd"; "psnr"; "agc"; "spd"; "crc_pass"; "ccerr"; "source"; "destination"];
  Method "acoustic_transmission_log_send" ["time_boot_ms"; "tow_ms"; "count"; "slot_num"; "data"] []%Z "acoustic_transmission_log_encode" ["time_boot_ms"; "tow_ms"; "count"; "slot_num"; "data"]
].

