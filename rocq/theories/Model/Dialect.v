(** GENERATED by tools/gen_dialect.py from /repo/mavlink_utils/HC_dialect.py.  Do not edit by hand. *)
From Coq Require Import List NArith String.
Import ListNotations.
Local Open Scope string_scope.

(** Class attributes of one generated message class; mavlink_utils/HC_dialect.py:2189-8390.
    [mc_key] is the key under which the class is stored in mavlink_map (8392-8548); [mc_unpacker] is the format of the
    class' struct.Struct; [mc_pack_extra]/[mc_pack_fmt] are the literals used by the class' own pack method.
    Left out: docstrings, fielddisplays_by_name, fieldenums_by_name, fieldunits_by_name, instance offsets,
    native_format (a bytearray with the same letters as format). *)
Record msg_class := MC {
  mc_key : N;
  mc_id : N;
  mc_name : string;
  mc_fieldnames : list string;
  mc_ordered : list string;
  mc_fieldtypes : list string;
  mc_format : string;
  mc_orders : list nat;
  mc_lengths : list nat;
  mc_array_lengths : list nat;
  mc_crc_extra : N;
  mc_unpacker : string;
  mc_pack_extra : N;
  mc_pack_fmt : string
}.

(** The values of [mavlink_map], in insertion order; mavlink_utils/HC_dialect.py:8392-8548. *)
Definition mavlink_classes : list msg_class :=
[
  (* MAVLink_heartbeat_message, lines 2189-2228 *)
  MC 0%N 0%N "HEARTBEAT"
     ["type"; "autopilot"; "base_mode"; "custom_mode"; "system_status"; "mavlink_version"]
     ["custom_mode"; "type"; "autopilot"; "base_mode"; "system_status"; "mavlink_version"]
     ["uint8_t"; "uint8_t"; "uint8_t"; "uint32_t"; "uint8_t"; "uint8_t"]
     "<IBBBBB" [1; 2; 3; 0; 4; 5]%nat [1; 1; 1; 1; 1; 1]%nat [0; 0; 0; 0; 0; 0]%nat 50%N "<IBBBBB" 50%N "<IBBBBB";
  (* MAVLink_sys_status_message, lines 2230-2287 *)
  MC 1%N 1%N "SYS_STATUS"
     ["onboard_control_sensors_present"; "onboard_control_sensors_enabled"; "onboard_control_sensors_health"; "load"; "voltage_battery"; "current_battery"; "battery_remaining"; "drop_rate_comm"; "errors_comm"; "errors_count1"; "errors_count2"; "errors_count3"; "errors_count4"]
     ["onboard_control_sensors_present"; "onboard_control_sensors_enabled"; "onboard_control_sensors_health"; "load"; "voltage_battery"; "current_battery"; "drop_rate_comm"; "errors_comm"; "errors_count1"; "errors_count2"; "errors_count3"; "errors_count4"; "battery_remaining"]
     ["uint32_t"; "uint32_t"; "uint32_t"; "uint16_t"; "uint16_t"; "int16_t"; "int8_t"; "uint16_t"; "uint16_t"; "uint16_t"; "uint16_t"; "uint16_t"; "uint16_t"]
     "<IIIHHhHHHHHHb" [0; 1; 2; 3; 4; 5; 12; 6; 7; 8; 9; 10; 11]%nat [1; 1; 1; 1; 1; 1; 1; 1; 1; 1; 1; 1; 1]%nat [0; 0; 0; 0; 0; 0; 0; 0; 0; 0; 0; 0; 0]%nat 124%N "<IIIHHhHHHHHHb" 124%N "<IIIHHhHHHHHHb";
  (* MAVLink_system_time_message, lines 2289-2321 *)
  MC 2%N 2%N "SYSTEM_TIME"
     ["time_unix_usec"; "time_boot_ms"]
     ["time_unix_usec"; "time_boot_ms"]
     ["uint64_t"; "uint32_t"]
     "<QI" [0; 1]%nat [1; 1]%nat [0; 0]%nat 137%N "<QI" 137%N "<QI";
  (* MAVLink_ping_message, lines 2323-2358 *)
  MC 4%N 4%N "PING"
     ["time_usec"; "seq"; "target_system"; "target_component"]
     ["time_usec"; "seq"; "target_system"; "target_component"]
     ["uint64_t"; "uint32_t"; "uint8_t"; "uint8_t"]
     "<QIBB" [0; 1; 2; 3]%nat [1; 1; 1; 1]%nat [0; 0; 0; 0]%nat 237%N "<QIBB" 237%N "<QIBB";
  (* MAVLink_change_operator_control_message, lines 2360-2393 *)
  MC 5%N 5%N "CHANGE_OPERATOR_CONTROL"
     ["target_system"; "control_request"; "version"; "passkey"]
     ["target_system"; "control_request"; "version"; "passkey"]
     ["uint8_t"; "uint8_t"; "uint8_t"; "char"]
     "<BBB25s" [0; 1; 2; 3]%nat [1; 1; 1; 1]%nat [0; 0; 0; 25]%nat 217%N "<BBB25s" 217%N "<BBB25s";
  (* MAVLink_change_operator_control_ack_message, lines 2395-2427 *)
  MC 6%N 6%N "CHANGE_OPERATOR_CONTROL_ACK"
     ["gcs_system_id"; "control_request"; "ack"]
     ["gcs_system_id"; "control_request"; "ack"]
     ["uint8_t"; "uint8_t"; "uint8_t"]
     "<BBB" [0; 1; 2]%nat [1; 1; 1]%nat [0; 0; 0]%nat 104%N "<BBB" 104%N "<BBB";
  (* MAVLink_auth_key_message, lines 2429-2462 *)
  MC 7%N 7%N "AUTH_KEY"
     ["key"]
     ["key"]
     ["char"]
     "<32s" [0]%nat [1]%nat [32]%nat 119%N "<32s" 119%N "<32s";
  (* MAVLink_set_mode_message, lines 2464-2500 *)
  MC 11%N 11%N "SET_MODE"
     ["target_system"; "base_mode"; "custom_mode"]
     ["custom_mode"; "target_system"; "base_mode"]
     ["uint8_t"; "uint8_t"; "uint32_t"]
     "<IBB" [1; 2; 0]%nat [1; 1; 1]%nat [0; 0; 0]%nat 89%N "<IBB" 89%N "<IBB";
  (* MAVLink_param_request_read_message, lines 2502-2542 *)
  MC 20%N 20%N "PARAM_REQUEST_READ"
     ["target_system"; "target_component"; "param_id"; "param_index"]
     ["param_index"; "target_system"; "target_component"; "param_id"]
     ["uint8_t"; "uint8_t"; "char"; "int16_t"]
     "<hBB16s" [1; 2; 3; 0]%nat [1; 1; 1; 1]%nat [0; 0; 0; 16]%nat 214%N "<hBB16s" 214%N "<hBB16s";
  (* MAVLink_param_request_list_message, lines 2544-2576 *)
  MC 21%N 21%N "PARAM_REQUEST_LIST"
     ["target_system"; "target_component"]
     ["target_system"; "target_component"]
     ["uint8_t"; "uint8_t"]
     "<BB" [0; 1]%nat [1; 1]%nat [0; 0]%nat 159%N "<BB" 159%N "<BB";
  (* MAVLink_param_value_message, lines 2578-2615 *)
  MC 22%N 22%N "PARAM_VALUE"
     ["param_id"; "param_value"; "param_type"; "param_count"; "param_index"]
     ["param_value"; "param_count"; "param_index"; "param_id"; "param_type"]
     ["char"; "float"; "uint8_t"; "uint16_t"; "uint16_t"]
     "<fHH16sB" [3; 0; 4; 1; 2]%nat [1; 1; 1; 1; 1]%nat [0; 0; 0; 16; 0]%nat 220%N "<fHH16sB" 220%N "<fHH16sB";
  (* MAVLink_param_set_message, lines 2617-2660 *)
  MC 23%N 23%N "PARAM_SET"
     ["target_system"; "target_component"; "param_id"; "param_value"; "param_type"]
     ["param_value"; "target_system"; "target_component"; "param_id"; "param_type"]
     ["uint8_t"; "uint8_t"; "char"; "float"; "uint8_t"]
     "<fBB16sB" [1; 2; 3; 0; 4]%nat [1; 1; 1; 1; 1]%nat [0; 0; 0; 16; 0]%nat 168%N "<fBB16sB" 168%N "<fBB16sB";
  (* MAVLink_gps_raw_int_message, lines 2662-2705 *)
  MC 24%N 24%N "GPS_RAW_INT"
     ["time_usec"; "fix_type"; "lat"; "lon"; "alt"; "eph"; "epv"; "vel"; "cog"; "satellites_visible"]
     ["time_usec"; "lat"; "lon"; "alt"; "eph"; "epv"; "vel"; "cog"; "fix_type"; "satellites_visible"]
     ["uint64_t"; "uint8_t"; "int32_t"; "int32_t"; "int32_t"; "uint16_t"; "uint16_t"; "uint16_t"; "uint16_t"; "uint8_t"]
     "<QiiiHHHHBB" [0; 8; 1; 2; 3; 4; 5; 6; 7; 9]%nat [1; 1; 1; 1; 1; 1; 1; 1; 1; 1]%nat [0; 0; 0; 0; 0; 0; 0; 0; 0; 0]%nat 24%N "<QiiiHHHHBB" 24%N "<QiiiHHHHBB";
  (* MAVLink_gps_status_message, lines 2707-2746 *)
  MC 25%N 25%N "GPS_STATUS"
     ["satellites_visible"; "satellite_prn"; "satellite_used"; "satellite_elevation"; "satellite_azimuth"; "satellite_snr"]
     ["satellites_visible"; "satellite_prn"; "satellite_used"; "satellite_elevation"; "satellite_azimuth"; "satellite_snr"]
     ["uint8_t"; "uint8_t"; "uint8_t"; "uint8_t"; "uint8_t"; "uint8_t"]
     "<B20B20B20B20B20B" [0; 1; 2; 3; 4; 5]%nat [1; 20; 20; 20; 20; 20]%nat [0; 20; 20; 20; 20; 20]%nat 23%N "<B20B20B20B20B20B" 23%N "<B20B20B20B20B20B";
  (* MAVLink_scaled_imu_message, lines 2748-2789 *)
  MC 26%N 26%N "SCALED_IMU"
     ["time_boot_ms"; "xacc"; "yacc"; "zacc"; "xgyro"; "ygyro"; "zgyro"; "xmag"; "ymag"; "zmag"]
     ["time_boot_ms"; "xacc"; "yacc"; "zacc"; "xgyro"; "ygyro"; "zgyro"; "xmag"; "ymag"; "zmag"]
     ["uint32_t"; "float"; "float"; "float"; "float"; "float"; "float"; "float"; "float"; "float"]
     "<Ifffffffff" [0; 1; 2; 3; 4; 5; 6; 7; 8; 9]%nat [1; 1; 1; 1; 1; 1; 1; 1; 1; 1]%nat [0; 0; 0; 0; 0; 0; 0; 0; 0; 0]%nat 174%N "<Ifffffffff" 174%N "<Ifffffffff";
  (* MAVLink_raw_imu_message, lines 2791-2832 *)
  MC 27%N 27%N "RAW_IMU"
     ["time_usec"; "xacc"; "yacc"; "zacc"; "xgyro"; "ygyro"; "zgyro"; "xmag"; "ymag"; "zmag"]
     ["time_usec"; "xacc"; "yacc"; "zacc"; "xgyro"; "ygyro"; "zgyro"; "xmag"; "ymag"; "zmag"]
     ["uint64_t"; "int16_t"; "int16_t"; "int16_t"; "int16_t"; "int16_t"; "int16_t"; "int16_t"; "int16_t"; "int16_t"]
     "<Qhhhhhhhhh" [0; 1; 2; 3; 4; 5; 6; 7; 8; 9]%nat [1; 1; 1; 1; 1; 1; 1; 1; 1; 1]%nat [0; 0; 0; 0; 0; 0; 0; 0; 0; 0]%nat 144%N "<Qhhhhhhhhh" 144%N "<Qhhhhhhhhh";
  (* MAVLink_raw_pressure_message, lines 2834-2870 *)
  MC 28%N 28%N "RAW_PRESSURE"
     ["time_usec"; "press_abs"; "press_diff1"; "press_diff2"; "temperature"]
     ["time_usec"; "press_abs"; "press_diff1"; "press_diff2"; "temperature"]
     ["uint64_t"; "int16_t"; "int16_t"; "int16_t"; "int16_t"]
     "<Qhhhh" [0; 1; 2; 3; 4]%nat [1; 1; 1; 1; 1]%nat [0; 0; 0; 0; 0]%nat 67%N "<Qhhhh" 67%N "<Qhhhh";
  (* MAVLink_scaled_pressure_message, lines 2872-2907 *)
  MC 29%N 29%N "SCALED_PRESSURE"
     ["time_boot_ms"; "press_abs"; "press_diff"; "temperature"]
     ["time_boot_ms"; "press_abs"; "press_diff"; "temperature"]
     ["uint32_t"; "float"; "float"; "float"]
     "<Ifff" [0; 1; 2; 3]%nat [1; 1; 1; 1]%nat [0; 0; 0; 0]%nat 108%N "<Ifff" 108%N "<Ifff";
  (* MAVLink_attitude_message, lines 2909-2946 *)
  MC 30%N 30%N "ATTITUDE"
     ["time_boot_ms"; "roll"; "pitch"; "yaw"; "rollspeed"; "pitchspeed"; "yawspeed"]
     ["time_boot_ms"; "roll"; "pitch"; "yaw"; "rollspeed"; "pitchspeed"; "yawspeed"]
     ["uint32_t"; "float"; "float"; "float"; "float"; "float"; "float"]
     "<Iffffff" [0; 1; 2; 3; 4; 5; 6]%nat [1; 1; 1; 1; 1; 1; 1]%nat [0; 0; 0; 0; 0; 0; 0]%nat 39%N "<Iffffff" 39%N "<Iffffff";
  (* MAVLink_attitude_quaternion_message, lines 2948-2988 *)
  MC 31%N 31%N "ATTITUDE_QUATERNION"
     ["time_boot_ms"; "q1"; "q2"; "q3"; "q4"; "rollspeed"; "pitchspeed"; "yawspeed"]
     ["time_boot_ms"; "q1"; "q2"; "q3"; "q4"; "rollspeed"; "pitchspeed"; "yawspeed"]
     ["uint32_t"; "float"; "float"; "float"; "float"; "float"; "float"; "float"]
     "<Ifffffff" [0; 1; 2; 3; 4; 5; 6; 7]%nat [1; 1; 1; 1; 1; 1; 1; 1]%nat [0; 0; 0; 0; 0; 0; 0; 0]%nat 246%N "<Ifffffff" 246%N "<Ifffffff";
  (* MAVLink_local_position_ned_message, lines 2990-3028 *)
  MC 32%N 32%N "LOCAL_POSITION_NED"
     ["time_boot_ms"; "x"; "y"; "z"; "vx"; "vy"; "vz"]
     ["time_boot_ms"; "x"; "y"; "z"; "vx"; "vy"; "vz"]
     ["uint32_t"; "float"; "float"; "float"; "float"; "float"; "float"]
     "<Iffffff" [0; 1; 2; 3; 4; 5; 6]%nat [1; 1; 1; 1; 1; 1; 1]%nat [0; 0; 0; 0; 0; 0; 0]%nat 185%N "<Iffffff" 185%N "<Iffffff";
  (* MAVLink_global_position_int_message, lines 3030-3073 *)
  MC 33%N 33%N "GLOBAL_POSITION_INT"
     ["time_boot_ms"; "lat"; "lon"; "alt"; "relative_alt"; "bottom_clearnce"; "depth"; "vx"; "vy"; "vz"; "hdg"]
     ["time_boot_ms"; "lat"; "lon"; "alt"; "relative_alt"; "bottom_clearnce"; "depth"; "vx"; "vy"; "vz"; "hdg"]
     ["uint32_t"; "int32_t"; "int32_t"; "float"; "float"; "float"; "float"; "float"; "float"; "float"; "float"]
     "<Iiiffffffff" [0; 1; 2; 3; 4; 5; 6; 7; 8; 9; 10]%nat [1; 1; 1; 1; 1; 1; 1; 1; 1; 1; 1]%nat [0; 0; 0; 0; 0; 0; 0; 0; 0; 0; 0]%nat 146%N "<Iiiffffffff" 146%N "<Iiiffffffff";
  (* MAVLink_rc_channels_scaled_message, lines 3075-3117 *)
  MC 34%N 34%N "RC_CHANNELS_SCALED"
     ["time_boot_ms"; "port"; "chan1_scaled"; "chan2_scaled"; "chan3_scaled"; "chan4_scaled"; "chan5_scaled"; "chan6_scaled"; "chan7_scaled"; "chan8_scaled"; "rssi"]
     ["time_boot_ms"; "chan1_scaled"; "chan2_scaled"; "chan3_scaled"; "chan4_scaled"; "chan5_scaled"; "chan6_scaled"; "chan7_scaled"; "chan8_scaled"; "port"; "rssi"]
     ["uint32_t"; "uint8_t"; "int16_t"; "int16_t"; "int16_t"; "int16_t"; "int16_t"; "int16_t"; "int16_t"; "int16_t"; "uint8_t"]
     "<IhhhhhhhhBB" [0; 9; 1; 2; 3; 4; 5; 6; 7; 8; 10]%nat [1; 1; 1; 1; 1; 1; 1; 1; 1; 1; 1]%nat [0; 0; 0; 0; 0; 0; 0; 0; 0; 0; 0]%nat 237%N "<IhhhhhhhhBB" 237%N "<IhhhhhhhhBB";
  (* MAVLink_rc_channels_raw_message, lines 3119-3162 *)
  MC 35%N 35%N "RC_CHANNELS_RAW"
     ["time_boot_ms"; "port"; "chan1_raw"; "chan2_raw"; "chan3_raw"; "chan4_raw"; "chan5_raw"; "chan6_raw"; "chan7_raw"; "chan8_raw"; "rssi"]
     ["time_boot_ms"; "chan1_raw"; "chan2_raw"; "chan3_raw"; "chan4_raw"; "chan5_raw"; "chan6_raw"; "chan7_raw"; "chan8_raw"; "port"; "rssi"]
     ["uint32_t"; "uint8_t"; "uint16_t"; "uint16_t"; "uint16_t"; "uint16_t"; "uint16_t"; "uint16_t"; "uint16_t"; "uint16_t"; "uint8_t"]
     "<IHHHHHHHHBB" [0; 9; 1; 2; 3; 4; 5; 6; 7; 8; 10]%nat [1; 1; 1; 1; 1; 1; 1; 1; 1; 1; 1]%nat [0; 0; 0; 0; 0; 0; 0; 0; 0; 0; 0]%nat 244%N "<IHHHHHHHHBB" 244%N "<IHHHHHHHHBB";
  (* MAVLink_servo_output_raw_message, lines 3164-3206 *)
  MC 36%N 36%N "SERVO_OUTPUT_RAW"
     ["time_usec"; "port"; "servo1_raw"; "servo2_raw"; "servo3_raw"; "servo4_raw"; "servo5_raw"; "servo6_raw"; "servo7_raw"; "servo8_raw"]
     ["time_usec"; "servo1_raw"; "servo2_raw"; "servo3_raw"; "servo4_raw"; "servo5_raw"; "servo6_raw"; "servo7_raw"; "servo8_raw"; "port"]
     ["uint32_t"; "uint8_t"; "uint16_t"; "uint16_t"; "uint16_t"; "uint16_t"; "uint16_t"; "uint16_t"; "uint16_t"; "uint16_t"]
     "<IHHHHHHHHB" [0; 9; 1; 2; 3; 4; 5; 6; 7; 8]%nat [1; 1; 1; 1; 1; 1; 1; 1; 1; 1]%nat [0; 0; 0; 0; 0; 0; 0; 0; 0; 0]%nat 222%N "<IHHHHHHHHB" 222%N "<IHHHHHHHHB";
  (* MAVLink_mission_request_partial_list_message, lines 3208-3244 *)
  MC 37%N 37%N "MISSION_REQUEST_PARTIAL_LIST"
     ["target_system"; "target_component"; "start_index"; "end_index"]
     ["start_index"; "end_index"; "target_system"; "target_component"]
     ["uint8_t"; "uint8_t"; "int16_t"; "int16_t"]
     "<hhBB" [2; 3; 0; 1]%nat [1; 1; 1; 1]%nat [0; 0; 0; 0]%nat 212%N "<hhBB" 212%N "<hhBB";
  (* MAVLink_mission_write_partial_list_message, lines 3246-3282 *)
  MC 38%N 38%N "MISSION_WRITE_PARTIAL_LIST"
     ["target_system"; "target_component"; "start_index"; "end_index"]
     ["start_index"; "end_index"; "target_system"; "target_component"]
     ["uint8_t"; "uint8_t"; "int16_t"; "int16_t"]
     "<hhBB" [2; 3; 0; 1]%nat [1; 1; 1; 1]%nat [0; 0; 0; 0]%nat 9%N "<hhBB" 9%N "<hhBB";
  (* MAVLink_mission_item_message, lines 3284-3333 *)
  MC 39%N 39%N "MISSION_ITEM"
     ["target_system"; "target_component"; "seq"; "frame"; "command"; "current"; "autocontinue"; "param1"; "param2"; "param3"; "param4"; "x"; "y"; "z"]
     ["param1"; "param2"; "param3"; "param4"; "x"; "y"; "z"; "seq"; "command"; "target_system"; "target_component"; "frame"; "current"; "autocontinue"]
     ["uint8_t"; "uint8_t"; "uint16_t"; "uint8_t"; "uint16_t"; "uint8_t"; "uint8_t"; "float"; "float"; "float"; "float"; "float"; "float"; "float"]
     "<fffffffHHBBBBB" [9; 10; 7; 11; 8; 12; 13; 0; 1; 2; 3; 4; 5; 6]%nat [1; 1; 1; 1; 1; 1; 1; 1; 1; 1; 1; 1; 1; 1]%nat [0; 0; 0; 0; 0; 0; 0; 0; 0; 0; 0; 0; 0; 0]%nat 254%N "<fffffffHHBBBBB" 254%N "<fffffffHHBBBBB";
  (* MAVLink_mission_request_message, lines 3335-3370 *)
  MC 40%N 40%N "MISSION_REQUEST"
     ["target_system"; "target_component"; "seq"]
     ["seq"; "target_system"; "target_component"]
     ["uint8_t"; "uint8_t"; "uint16_t"]
     "<HBB" [1; 2; 0]%nat [1; 1; 1]%nat [0; 0; 0]%nat 230%N "<HBB" 230%N "<HBB";
  (* MAVLink_mission_set_current_message, lines 3372-3407 *)
  MC 41%N 41%N "MISSION_SET_CURRENT"
     ["target_system"; "target_component"; "seq"]
     ["seq"; "target_system"; "target_component"]
     ["uint8_t"; "uint8_t"; "uint16_t"]
     "<HBB" [1; 2; 0]%nat [1; 1; 1]%nat [0; 0; 0]%nat 28%N "<HBB" 28%N "<HBB";
  (* MAVLink_mission_current_message, lines 3409-3441 *)
  MC 42%N 42%N "MISSION_CURRENT"
     ["seq"]
     ["seq"]
     ["uint16_t"]
     "<H" [0]%nat [1]%nat [0]%nat 28%N "<H" 28%N "<H";
  (* MAVLink_mission_request_list_message, lines 3443-3475 *)
  MC 43%N 43%N "MISSION_REQUEST_LIST"
     ["target_system"; "target_component"]
     ["target_system"; "target_component"]
     ["uint8_t"; "uint8_t"]
     "<BB" [0; 1]%nat [1; 1]%nat [0; 0]%nat 132%N "<BB" 132%N "<BB";
  (* MAVLink_mission_count_message, lines 3477-3512 *)
  MC 44%N 44%N "MISSION_COUNT"
     ["target_system"; "target_component"; "count"]
     ["count"; "target_system"; "target_component"]
     ["uint8_t"; "uint8_t"; "uint16_t"]
     "<HBB" [1; 2; 0]%nat [1; 1; 1]%nat [0; 0; 0]%nat 221%N "<HBB" 221%N "<HBB";
  (* MAVLink_mission_clear_all_message, lines 3514-3545 *)
  MC 45%N 45%N "MISSION_CLEAR_ALL"
     ["target_system"; "target_component"]
     ["target_system"; "target_component"]
     ["uint8_t"; "uint8_t"]
     "<BB" [0; 1]%nat [1; 1]%nat [0; 0]%nat 232%N "<BB" 232%N "<BB";
  (* MAVLink_mission_item_reached_message, lines 3547-3579 *)
  MC 46%N 46%N "MISSION_ITEM_REACHED"
     ["seq"]
     ["seq"]
     ["uint16_t"]
     "<H" [0]%nat [1]%nat [0]%nat 11%N "<H" 11%N "<H";
  (* MAVLink_mission_ack_message, lines 3581-3615 *)
  MC 47%N 47%N "MISSION_ACK"
     ["target_system"; "target_component"; "type"]
     ["target_system"; "target_component"; "type"]
     ["uint8_t"; "uint8_t"; "uint8_t"]
     "<BBB" [0; 1; 2]%nat [1; 1; 1]%nat [0; 0; 0]%nat 153%N "<BBB" 153%N "<BBB";
  (* MAVLink_set_gps_global_origin_message, lines 3617-3654 *)
  MC 48%N 48%N "SET_GPS_GLOBAL_ORIGIN"
     ["target_system"; "latitude"; "longitude"; "altitude"]
     ["latitude"; "longitude"; "altitude"; "target_system"]
     ["uint8_t"; "int32_t"; "int32_t"; "int32_t"]
     "<iiiB" [3; 0; 1; 2]%nat [1; 1; 1; 1]%nat [0; 0; 0; 0]%nat 41%N "<iiiB" 41%N "<iiiB";
  (* MAVLink_gps_global_origin_message, lines 3656-3689 *)
  MC 49%N 49%N "GPS_GLOBAL_ORIGIN"
     ["latitude"; "longitude"; "altitude"]
     ["latitude"; "longitude"; "altitude"]
     ["int32_t"; "int32_t"; "int32_t"]
     "<iii" [0; 1; 2]%nat [1; 1; 1]%nat [0; 0; 0]%nat 39%N "<iii" 39%N "<iii";
  (* MAVLink_param_map_rc_message, lines 3691-3730 *)
  MC 50%N 50%N "PARAM_MAP_RC"
     ["target_system"; "target_component"; "param_id"; "param_index"; "parameter_rc_channel_index"; "param_value0"; "scale"; "param_value_min"; "param_value_max"]
     ["param_value0"; "scale"; "param_value_min"; "param_value_max"; "param_index"; "target_system"; "target_component"; "param_id"; "parameter_rc_channel_index"]
     ["uint8_t"; "uint8_t"; "char"; "int16_t"; "uint8_t"; "float"; "float"; "float"; "float"]
     "<ffffhBB16sB" [5; 6; 7; 4; 8; 0; 1; 2; 3]%nat [1; 1; 1; 1; 1; 1; 1; 1; 1]%nat [0; 0; 0; 0; 0; 0; 0; 16; 0]%nat 78%N "<ffffhBB16sB" 78%N "<ffffhBB16sB";
  (* MAVLink_safety_set_allowed_area_message, lines 3732-3773 *)
  MC 54%N 54%N "SAFETY_SET_ALLOWED_AREA"
     ["target_system"; "target_component"; "frame"; "p1x"; "p1y"; "p1z"; "p2x"; "p2y"; "p2z"]
     ["p1x"; "p1y"; "p1z"; "p2x"; "p2y"; "p2z"; "target_system"; "target_component"; "frame"]
     ["uint8_t"; "uint8_t"; "uint8_t"; "float"; "float"; "float"; "float"; "float"; "float"]
     "<ffffffBBB" [6; 7; 8; 0; 1; 2; 3; 4; 5]%nat [1; 1; 1; 1; 1; 1; 1; 1; 1]%nat [0; 0; 0; 0; 0; 0; 0; 0; 0]%nat 15%N "<ffffffBBB" 15%N "<ffffffBBB";
  (* MAVLink_safety_allowed_area_message, lines 3775-3811 *)
  MC 55%N 55%N "SAFETY_ALLOWED_AREA"
     ["frame"; "p1x"; "p1y"; "p1z"; "p2x"; "p2y"; "p2z"]
     ["p1x"; "p1y"; "p1z"; "p2x"; "p2y"; "p2z"; "frame"]
     ["uint8_t"; "float"; "float"; "float"; "float"; "float"; "float"]
     "<ffffffB" [6; 0; 1; 2; 3; 4; 5]%nat [1; 1; 1; 1; 1; 1; 1]%nat [0; 0; 0; 0; 0; 0; 0]%nat 3%N "<ffffffB" 3%N "<ffffffB";
  (* MAVLink_attitude_quaternion_cov_message, lines 3813-3851 *)
  MC 61%N 61%N "ATTITUDE_QUATERNION_COV"
     ["time_boot_ms"; "q"; "rollspeed"; "pitchspeed"; "yawspeed"; "covariance"]
     ["time_boot_ms"; "q"; "rollspeed"; "pitchspeed"; "yawspeed"; "covariance"]
     ["uint32_t"; "float"; "float"; "float"; "float"; "float"]
     "<I4ffff9f" [0; 1; 2; 3; 4; 5]%nat [1; 4; 1; 1; 1; 9]%nat [0; 4; 0; 0; 0; 9]%nat 153%N "<I4ffff9f" 153%N "<I4ffff9f";
  (* MAVLink_nav_controller_output_message, lines 3853-3893 *)
  MC 62%N 62%N "NAV_CONTROLLER_OUTPUT"
     ["nav_roll"; "nav_pitch"; "nav_bearing"; "target_bearing"; "wp_dist"; "alt_error"; "aspd_error"; "xtrack_error"]
     ["nav_roll"; "nav_pitch"; "alt_error"; "aspd_error"; "xtrack_error"; "nav_bearing"; "target_bearing"; "wp_dist"]
     ["float"; "float"; "int16_t"; "int16_t"; "uint16_t"; "float"; "float"; "float"]
     "<fffffhhH" [0; 1; 5; 6; 7; 2; 3; 4]%nat [1; 1; 1; 1; 1; 1; 1; 1]%nat [0; 0; 0; 0; 0; 0; 0; 0]%nat 183%N "<fffffhhH" 183%N "<fffffhhH";
  (* MAVLink_global_position_int_cov_message, lines 3895-3942 *)
  MC 63%N 63%N "GLOBAL_POSITION_INT_COV"
     ["time_boot_ms"; "time_utc"; "estimator_type"; "lat"; "lon"; "alt"; "relative_alt"; "vx"; "vy"; "vz"; "covariance"]
     ["time_utc"; "time_boot_ms"; "lat"; "lon"; "alt"; "relative_alt"; "vx"; "vy"; "vz"; "covariance"; "estimator_type"]
     ["uint32_t"; "uint64_t"; "uint8_t"; "int32_t"; "int32_t"; "int32_t"; "int32_t"; "float"; "float"; "float"; "float"]
     "<QIiiiifff36fB" [1; 0; 10; 2; 3; 4; 5; 6; 7; 8; 9]%nat [1; 1; 1; 1; 1; 1; 1; 1; 1; 36; 1]%nat [0; 0; 0; 0; 0; 0; 0; 0; 0; 36; 0]%nat 51%N "<QIiiiifff36fB" 51%N "<QIiiiifff36fB";
  (* MAVLink_local_position_ned_cov_message, lines 3944-3988 *)
  MC 64%N 64%N "LOCAL_POSITION_NED_COV"
     ["time_boot_ms"; "time_utc"; "estimator_type"; "x"; "y"; "z"; "vx"; "vy"; "vz"; "ax"; "ay"; "az"; "covariance"]
     ["time_utc"; "time_boot_ms"; "x"; "y"; "z"; "vx"; "vy"; "vz"; "ax"; "ay"; "az"; "covariance"; "estimator_type"]
     ["uint32_t"; "uint64_t"; "uint8_t"; "float"; "float"; "float"; "float"; "float"; "float"; "float"; "float"; "float"; "float"]
     "<QIfffffffff45fB" [1; 0; 12; 2; 3; 4; 5; 6; 7; 8; 9; 10; 11]%nat [1; 1; 1; 1; 1; 1; 1; 1; 1; 1; 1; 45; 1]%nat [0; 0; 0; 0; 0; 0; 0; 0; 0; 0; 0; 45; 0]%nat 59%N "<QIfffffffff45fB" 59%N "<QIfffffffff45fB";
  (* MAVLink_rc_channels_message, lines 3990-4043 *)
  MC 65%N 65%N "RC_CHANNELS"
     ["time_boot_ms"; "chancount"; "chan1_raw"; "chan2_raw"; "chan3_raw"; "chan4_raw"; "chan5_raw"; "chan6_raw"; "chan7_raw"; "chan8_raw"; "chan9_raw"; "chan10_raw"; "chan11_raw"; "chan12_raw"; "chan13_raw"; "chan14_raw"; "chan15_raw"; "chan16_raw"; "chan17_raw"; "chan18_raw"; "rssi"]
     ["time_boot_ms"; "chan1_raw"; "chan2_raw"; "chan3_raw"; "chan4_raw"; "chan5_raw"; "chan6_raw"; "chan7_raw"; "chan8_raw"; "chan9_raw"; "chan10_raw"; "chan11_raw"; "chan12_raw"; "chan13_raw"; "chan14_raw"; "chan15_raw"; "chan16_raw"; "chan17_raw"; "chan18_raw"; "chancount"; "rssi"]
     ["uint32_t"; "uint8_t"; "uint16_t"; "uint16_t"; "uint16_t"; "uint16_t"; "uint16_t"; "uint16_t"; "uint16_t"; "uint16_t"; "uint16_t"; "uint16_t"; "uint16_t"; "uint16_t"; "uint16_t"; "uint16_t"; "uint16_t"; "uint16_t"; "uint16_t"; "uint16_t"; "uint8_t"]
     "<IHHHHHHHHHHHHHHHHHHBB" [0; 19; 1; 2; 3; 4; 5; 6; 7; 8; 9; 10; 11; 12; 13; 14; 15; 16; 17; 18; 20]%nat [1; 1; 1; 1; 1; 1; 1; 1; 1; 1; 1; 1; 1; 1; 1; 1; 1; 1; 1; 1; 1]%nat [0; 0; 0; 0; 0; 0; 0; 0; 0; 0; 0; 0; 0; 0; 0; 0; 0; 0; 0; 0; 0]%nat 118%N "<IHHHHHHHHHHHHHHHHHHBB" 118%N "<IHHHHHHHHHHHHHHHHHHBB";
  (* MAVLink_request_data_stream_message, lines 4045-4080 *)
  MC 66%N 66%N "REQUEST_DATA_STREAM"
     ["target_system"; "target_component"; "req_stream_id"; "req_message_rate"; "start_stop"]
     ["req_message_rate"; "target_system"; "target_component"; "req_stream_id"; "start_stop"]
     ["uint8_t"; "uint8_t"; "uint8_t"; "uint16_t"; "uint8_t"]
     "<HBBBB" [1; 2; 3; 0; 4]%nat [1; 1; 1; 1; 1]%nat [0; 0; 0; 0; 0]%nat 148%N "<HBBBB" 148%N "<HBBBB";
  (* MAVLink_data_stream_message, lines 4082-4114 *)
  MC 67%N 67%N "DATA_STREAM"
     ["stream_id"; "message_rate"; "on_off"]
     ["message_rate"; "stream_id"; "on_off"]
     ["uint8_t"; "uint16_t"; "uint8_t"]
     "<HBB" [1; 0; 2]%nat [1; 1; 1]%nat [0; 0; 0]%nat 21%N "<HBB" 21%N "<HBB";
  (* MAVLink_manual_control_message, lines 4116-4154 *)
  MC 69%N 69%N "MANUAL_CONTROL"
     ["target"; "x"; "y"; "z"; "r"; "buttons"]
     ["x"; "y"; "z"; "r"; "buttons"; "target"]
     ["uint8_t"; "int16_t"; "int16_t"; "int16_t"; "int16_t"; "uint16_t"]
     "<hhhhHB" [5; 0; 1; 2; 3; 4]%nat [1; 1; 1; 1; 1; 1]%nat [0; 0; 0; 0; 0; 0]%nat 243%N "<hhhhHB" 243%N "<hhhhHB";
  (* MAVLink_rc_channels_override_message, lines 4156-4201 *)
  MC 70%N 70%N "RC_CHANNELS_OVERRIDE"
     ["target_system"; "target_component"; "chan1_raw"; "chan2_raw"; "chan3_raw"; "chan4_raw"; "chan5_raw"; "chan6_raw"; "chan7_raw"; "chan8_raw"]
     ["chan1_raw"; "chan2_raw"; "chan3_raw"; "chan4_raw"; "chan5_raw"; "chan6_raw"; "chan7_raw"; "chan8_raw"; "target_system"; "target_component"]
     ["uint8_t"; "uint8_t"; "uint16_t"; "uint16_t"; "uint16_t"; "uint16_t"; "uint16_t"; "uint16_t"; "uint16_t"; "uint16_t"]
     "<HHHHHHHHBB" [8; 9; 0; 1; 2; 3; 4; 5; 6; 7]%nat [1; 1; 1; 1; 1; 1; 1; 1; 1; 1]%nat [0; 0; 0; 0; 0; 0; 0; 0; 0; 0]%nat 124%N "<HHHHHHHHBB" 124%N "<HHHHHHHHBB";
  (* MAVLink_mission_item_int_message, lines 4203-4252 *)
  MC 73%N 73%N "MISSION_ITEM_INT"
     ["target_system"; "target_component"; "seq"; "frame"; "command"; "current"; "autocontinue"; "param1"; "param2"; "param3"; "param4"; "x"; "y"; "z"]
     ["param1"; "param2"; "param3"; "param4"; "x"; "y"; "z"; "seq"; "command"; "target_system"; "target_component"; "frame"; "current"; "autocontinue"]
     ["uint8_t"; "uint8_t"; "uint16_t"; "uint8_t"; "uint16_t"; "uint8_t"; "uint8_t"; "float"; "float"; "float"; "float"; "int32_t"; "int32_t"; "float"]
     "<ffffiifHHBBBBB" [9; 10; 7; 11; 8; 12; 13; 0; 1; 2; 3; 4; 5; 6]%nat [1; 1; 1; 1; 1; 1; 1; 1; 1; 1; 1; 1; 1; 1]%nat [0; 0; 0; 0; 0; 0; 0; 0; 0; 0; 0; 0; 0; 0]%nat 38%N "<ffffiifHHBBBBB" 38%N "<ffffiifHHBBBBB";
  (* MAVLink_vfr_hud_message, lines 4254-4289 *)
  MC 74%N 74%N "VFR_HUD"
     ["airspeed"; "groundspeed"; "heading"; "throttle"; "alt"; "climb"]
     ["airspeed"; "groundspeed"; "alt"; "climb"; "heading"; "throttle"]
     ["float"; "float"; "int16_t"; "uint16_t"; "float"; "float"]
     "<ffffhH" [0; 1; 4; 5; 2; 3]%nat [1; 1; 1; 1; 1; 1]%nat [0; 0; 0; 0; 0; 0]%nat 20%N "<ffffhH" 20%N "<ffffhH";
  (* MAVLink_command_int_message, lines 4291-4334 *)
  MC 75%N 75%N "COMMAND_INT"
     ["target_system"; "target_component"; "frame"; "command"; "current"; "autocontinue"; "param1"; "param2"; "param3"; "param4"; "x"; "y"; "z"]
     ["param1"; "param2"; "param3"; "param4"; "x"; "y"; "z"; "command"; "target_system"; "target_component"; "frame"; "current"; "autocontinue"]
     ["uint8_t"; "uint8_t"; "uint8_t"; "uint16_t"; "uint8_t"; "uint8_t"; "float"; "float"; "float"; "float"; "int32_t"; "int32_t"; "float"]
     "<ffffiifHBBBBB" [8; 9; 10; 7; 11; 12; 0; 1; 2; 3; 4; 5; 6]%nat [1; 1; 1; 1; 1; 1; 1; 1; 1; 1; 1; 1; 1]%nat [0; 0; 0; 0; 0; 0; 0; 0; 0; 0; 0; 0; 0]%nat 158%N "<ffffiifHBBBBB" 158%N "<ffffiifHBBBBB";
  (* MAVLink_command_long_message, lines 4336-4376 *)
  MC 76%N 76%N "COMMAND_LONG"
     ["target_system"; "target_component"; "command"; "confirmation"; "param1"; "param2"; "param3"; "param4"; "param5"; "param6"; "param7"]
     ["param1"; "param2"; "param3"; "param4"; "param5"; "param6"; "param7"; "command"; "target_system"; "target_component"; "confirmation"]
     ["uint8_t"; "uint8_t"; "uint16_t"; "uint8_t"; "float"; "float"; "float"; "float"; "float"; "float"; "float"]
     "<fffffffHBBB" [8; 9; 7; 10; 0; 1; 2; 3; 4; 5; 6]%nat [1; 1; 1; 1; 1; 1; 1; 1; 1; 1; 1]%nat [0; 0; 0; 0; 0; 0; 0; 0; 0; 0; 0]%nat 152%N "<fffffffHBBB" 152%N "<fffffffHBBB";
  (* MAVLink_command_ack_message, lines 4378-4410 *)
  MC 77%N 77%N "COMMAND_ACK"
     ["command"; "result"]
     ["command"; "result"]
     ["uint16_t"; "uint8_t"]
     "<HB" [0; 1]%nat [1; 1]%nat [0; 0]%nat 143%N "<HB" 143%N "<HB";
  (* MAVLink_manual_setpoint_message, lines 4412-4448 *)
  MC 81%N 81%N "MANUAL_SETPOINT"
     ["time_boot_ms"; "roll"; "pitch"; "yaw"; "thrust"; "mode_switch"; "manual_override_switch"]
     ["time_boot_ms"; "roll"; "pitch"; "yaw"; "thrust"; "mode_switch"; "manual_override_switch"]
     ["uint32_t"; "float"; "float"; "float"; "float"; "uint8_t"; "uint8_t"]
     "<IffffBB" [0; 1; 2; 3; 4; 5; 6]%nat [1; 1; 1; 1; 1; 1; 1]%nat [0; 0; 0; 0; 0; 0; 0]%nat 106%N "<IffffBB" 106%N "<IffffBB";
  (* MAVLink_set_attitude_target_message, lines 4450-4488 *)
  MC 82%N 82%N "SET_ATTITUDE_TARGET"
     ["time_boot_ms"; "target_system"; "target_component"; "type_mask"; "q"; "body_roll_rate"; "body_pitch_rate"; "body_yaw_rate"; "thrust"]
     ["time_boot_ms"; "q"; "body_roll_rate"; "body_pitch_rate"; "body_yaw_rate"; "thrust"; "target_system"; "target_component"; "type_mask"]
     ["uint32_t"; "uint8_t"; "uint8_t"; "uint8_t"; "float"; "float"; "float"; "float"; "float"]
     "<I4fffffBBB" [0; 6; 7; 8; 1; 2; 3; 4; 5]%nat [1; 4; 1; 1; 1; 1; 1; 1; 1]%nat [0; 4; 0; 0; 0; 0; 0; 0; 0]%nat 49%N "<I4fffffBBB" 49%N "<I4fffffBBB";
  (* MAVLink_attitude_target_message, lines 4490-4526 *)
  MC 83%N 83%N "ATTITUDE_TARGET"
     ["time_boot_ms"; "type_mask"; "q"; "body_roll_rate"; "body_pitch_rate"; "body_yaw_rate"; "thrust"]
     ["time_boot_ms"; "q"; "body_roll_rate"; "body_pitch_rate"; "body_yaw_rate"; "thrust"; "type_mask"]
     ["uint32_t"; "uint8_t"; "float"; "float"; "float"; "float"; "float"]
     "<I4fffffB" [0; 6; 1; 2; 3; 4; 5]%nat [1; 4; 1; 1; 1; 1; 1]%nat [0; 4; 0; 0; 0; 0; 0]%nat 22%N "<I4fffffB" 22%N "<I4fffffB";
  (* MAVLink_set_position_target_local_ned_message, lines 4528-4574 *)
  MC 84%N 84%N "SET_POSITION_TARGET_LOCAL_NED"
     ["time_boot_ms"; "target_system"; "target_component"; "coordinate_frame"; "type_mask"; "x"; "y"; "z"; "vx"; "vy"; "vz"; "afx"; "afy"; "afz"; "yaw"; "yaw_rate"]
     ["time_boot_ms"; "x"; "y"; "z"; "vx"; "vy"; "vz"; "afx"; "afy"; "afz"; "yaw"; "yaw_rate"; "type_mask"; "target_system"; "target_component"; "coordinate_frame"]
     ["uint32_t"; "uint8_t"; "uint8_t"; "uint8_t"; "uint16_t"; "float"; "float"; "float"; "float"; "float"; "float"; "float"; "float"; "float"; "float"; "float"]
     "<IfffffffffffHBBB" [0; 13; 14; 15; 12; 1; 2; 3; 4; 5; 6; 7; 8; 9; 10; 11]%nat [1; 1; 1; 1; 1; 1; 1; 1; 1; 1; 1; 1; 1; 1; 1; 1]%nat [0; 0; 0; 0; 0; 0; 0; 0; 0; 0; 0; 0; 0; 0; 0; 0]%nat 143%N "<IfffffffffffHBBB" 143%N "<IfffffffffffHBBB";
  (* MAVLink_position_target_local_ned_message, lines 4576-4620 *)
  MC 85%N 85%N "POSITION_TARGET_LOCAL_NED"
     ["time_boot_ms"; "coordinate_frame"; "type_mask"; "x"; "y"; "z"; "vx"; "vy"; "vz"; "afx"; "afy"; "afz"; "yaw"; "yaw_rate"]
     ["time_boot_ms"; "x"; "y"; "z"; "vx"; "vy"; "vz"; "afx"; "afy"; "afz"; "yaw"; "yaw_rate"; "type_mask"; "coordinate_frame"]
     ["uint32_t"; "uint8_t"; "uint16_t"; "float"; "float"; "float"; "float"; "float"; "float"; "float"; "float"; "float"; "float"; "float"]
     "<IfffffffffffHB" [0; 13; 12; 1; 2; 3; 4; 5; 6; 7; 8; 9; 10; 11]%nat [1; 1; 1; 1; 1; 1; 1; 1; 1; 1; 1; 1; 1; 1]%nat [0; 0; 0; 0; 0; 0; 0; 0; 0; 0; 0; 0; 0; 0]%nat 140%N "<IfffffffffffHB" 140%N "<IfffffffffffHB";
  (* MAVLink_set_position_target_global_int_message, lines 4622-4668 *)
  MC 86%N 86%N "SET_POSITION_TARGET_GLOBAL_INT"
     ["time_boot_ms"; "target_system"; "target_component"; "coordinate_frame"; "type_mask"; "lat_int"; "lon_int"; "alt"; "vx"; "vy"; "vz"; "afx"; "afy"; "afz"; "yaw"; "yaw_rate"]
     ["time_boot_ms"; "lat_int"; "lon_int"; "alt"; "vx"; "vy"; "vz"; "afx"; "afy"; "afz"; "yaw"; "yaw_rate"; "type_mask"; "target_system"; "target_component"; "coordinate_frame"]
     ["uint32_t"; "uint8_t"; "uint8_t"; "uint8_t"; "uint16_t"; "int32_t"; "int32_t"; "float"; "float"; "float"; "float"; "float"; "float"; "float"; "float"; "float"]
     "<IiifffffffffHBBB" [0; 13; 14; 15; 12; 1; 2; 3; 4; 5; 6; 7; 8; 9; 10; 11]%nat [1; 1; 1; 1; 1; 1; 1; 1; 1; 1; 1; 1; 1; 1; 1; 1]%nat [0; 0; 0; 0; 0; 0; 0; 0; 0; 0; 0; 0; 0; 0; 0; 0]%nat 5%N "<IiifffffffffHBBB" 5%N "<IiifffffffffHBBB";
  (* MAVLink_position_target_global_int_message, lines 4670-4714 *)
  MC 87%N 87%N "POSITION_TARGET_GLOBAL_INT"
     ["time_boot_ms"; "coordinate_frame"; "type_mask"; "lat_int"; "lon_int"; "alt"; "vx"; "vy"; "vz"; "afx"; "afy"; "afz"; "yaw"; "yaw_rate"]
     ["time_boot_ms"; "lat_int"; "lon_int"; "alt"; "vx"; "vy"; "vz"; "afx"; "afy"; "afz"; "yaw"; "yaw_rate"; "type_mask"; "coordinate_frame"]
     ["uint32_t"; "uint8_t"; "uint16_t"; "int32_t"; "int32_t"; "float"; "float"; "float"; "float"; "float"; "float"; "float"; "float"; "float"]
     "<IiifffffffffHB" [0; 13; 12; 1; 2; 3; 4; 5; 6; 7; 8; 9; 10; 11]%nat [1; 1; 1; 1; 1; 1; 1; 1; 1; 1; 1; 1; 1; 1]%nat [0; 0; 0; 0; 0; 0; 0; 0; 0; 0; 0; 0; 0; 0]%nat 150%N "<IiifffffffffHB" 150%N "<IiifffffffffHB";
  (* MAVLink_local_position_ned_system_global_offset_message, lines 4716-4755 *)
  MC 89%N 89%N "LOCAL_POSITION_NED_SYSTEM_GLOBAL_OFFSET"
     ["time_boot_ms"; "x"; "y"; "z"; "roll"; "pitch"; "yaw"]
     ["time_boot_ms"; "x"; "y"; "z"; "roll"; "pitch"; "yaw"]
     ["uint32_t"; "float"; "float"; "float"; "float"; "float"; "float"]
     "<Iffffff" [0; 1; 2; 3; 4; 5; 6]%nat [1; 1; 1; 1; 1; 1; 1]%nat [0; 0; 0; 0; 0; 0; 0]%nat 231%N "<Iffffff" 231%N "<Iffffff";
  (* MAVLink_hil_state_message, lines 4757-4806 *)
  MC 90%N 90%N "HIL_STATE"
     ["time_usec"; "roll"; "pitch"; "yaw"; "rollspeed"; "pitchspeed"; "yawspeed"; "lat"; "lon"; "alt"; "vx"; "vy"; "vz"; "xacc"; "yacc"; "zacc"]
     ["time_usec"; "roll"; "pitch"; "yaw"; "rollspeed"; "pitchspeed"; "yawspeed"; "lat"; "lon"; "alt"; "vx"; "vy"; "vz"; "xacc"; "yacc"; "zacc"]
     ["uint64_t"; "float"; "float"; "float"; "float"; "float"; "float"; "int32_t"; "int32_t"; "int32_t"; "int16_t"; "int16_t"; "int16_t"; "int16_t"; "int16_t"; "int16_t"]
     "<Qffffffiiihhhhhh" [0; 1; 2; 3; 4; 5; 6; 7; 8; 9; 10; 11; 12; 13; 14; 15]%nat [1; 1; 1; 1; 1; 1; 1; 1; 1; 1; 1; 1; 1; 1; 1; 1]%nat [0; 0; 0; 0; 0; 0; 0; 0; 0; 0; 0; 0; 0; 0; 0; 0]%nat 183%N "<Qffffffiiihhhhhh" 183%N "<Qffffffiiihhhhhh";
  (* MAVLink_hil_controls_message, lines 4808-4849 *)
  MC 91%N 91%N "HIL_CONTROLS"
     ["time_usec"; "roll_ailerons"; "pitch_elevator"; "yaw_rudder"; "throttle"; "aux1"; "aux2"; "aux3"; "aux4"; "mode"; "nav_mode"]
     ["time_usec"; "roll_ailerons"; "pitch_elevator"; "yaw_rudder"; "throttle"; "aux1"; "aux2"; "aux3"; "aux4"; "mode"; "nav_mode"]
     ["uint64_t"; "float"; "float"; "float"; "float"; "float"; "float"; "float"; "float"; "uint8_t"; "uint8_t"]
     "<QffffffffBB" [0; 1; 2; 3; 4; 5; 6; 7; 8; 9; 10]%nat [1; 1; 1; 1; 1; 1; 1; 1; 1; 1; 1]%nat [0; 0; 0; 0; 0; 0; 0; 0; 0; 0; 0]%nat 63%N "<QffffffffBB" 63%N "<QffffffffBB";
  (* MAVLink_hil_rc_inputs_raw_message, lines 4851-4897 *)
  MC 92%N 92%N "HIL_RC_INPUTS_RAW"
     ["time_usec"; "chan1_raw"; "chan2_raw"; "chan3_raw"; "chan4_raw"; "chan5_raw"; "chan6_raw"; "chan7_raw"; "chan8_raw"; "chan9_raw"; "chan10_raw"; "chan11_raw"; "chan12_raw"; "rssi"]
     ["time_usec"; "chan1_raw"; "chan2_raw"; "chan3_raw"; "chan4_raw"; "chan5_raw"; "chan6_raw"; "chan7_raw"; "chan8_raw"; "chan9_raw"; "chan10_raw"; "chan11_raw"; "chan12_raw"; "rssi"]
     ["uint64_t"; "uint16_t"; "uint16_t"; "uint16_t"; "uint16_t"; "uint16_t"; "uint16_t"; "uint16_t"; "uint16_t"; "uint16_t"; "uint16_t"; "uint16_t"; "uint16_t"; "uint8_t"]
     "<QHHHHHHHHHHHHB" [0; 1; 2; 3; 4; 5; 6; 7; 8; 9; 10; 11; 12; 13]%nat [1; 1; 1; 1; 1; 1; 1; 1; 1; 1; 1; 1; 1; 1]%nat [0; 0; 0; 0; 0; 0; 0; 0; 0; 0; 0; 0; 0; 0]%nat 54%N "<QHHHHHHHHHHHHB" 54%N "<QHHHHHHHHHHHHB";
  (* MAVLink_optical_flow_message, lines 4899-4936 *)
  MC 100%N 100%N "OPTICAL_FLOW"
     ["time_usec"; "sensor_id"; "flow_x"; "flow_y"; "flow_comp_m_x"; "flow_comp_m_y"; "quality"; "ground_distance"]
     ["time_usec"; "flow_comp_m_x"; "flow_comp_m_y"; "ground_distance"; "flow_x"; "flow_y"; "sensor_id"; "quality"]
     ["uint64_t"; "uint8_t"; "int16_t"; "int16_t"; "float"; "float"; "uint8_t"; "float"]
     "<QfffhhBB" [0; 6; 4; 5; 1; 2; 7; 3]%nat [1; 1; 1; 1; 1; 1; 1; 1]%nat [0; 0; 0; 0; 0; 0; 0; 0]%nat 175%N "<QfffhhBB" 175%N "<QfffhhBB";
  (* MAVLink_global_vision_position_estimate_message, lines 4938-4974 *)
  MC 101%N 101%N "GLOBAL_VISION_POSITION_ESTIMATE"
     ["usec"; "x"; "y"; "z"; "roll"; "pitch"; "yaw"]
     ["usec"; "x"; "y"; "z"; "roll"; "pitch"; "yaw"]
     ["uint64_t"; "float"; "float"; "float"; "float"; "float"; "float"]
     "<Qffffff" [0; 1; 2; 3; 4; 5; 6]%nat [1; 1; 1; 1; 1; 1; 1]%nat [0; 0; 0; 0; 0; 0; 0]%nat 102%N "<Qffffff" 102%N "<Qffffff";
  (* MAVLink_vision_position_estimate_message, lines 4976-5012 *)
  MC 102%N 102%N "VISION_POSITION_ESTIMATE"
     ["usec"; "x"; "y"; "z"; "roll"; "pitch"; "yaw"]
     ["usec"; "x"; "y"; "z"; "roll"; "pitch"; "yaw"]
     ["uint64_t"; "float"; "float"; "float"; "float"; "float"; "float"]
     "<Qffffff" [0; 1; 2; 3; 4; 5; 6]%nat [1; 1; 1; 1; 1; 1; 1]%nat [0; 0; 0; 0; 0; 0; 0]%nat 158%N "<Qffffff" 158%N "<Qffffff";
  (* MAVLink_vision_speed_estimate_message, lines 5014-5047 *)
  MC 103%N 103%N "VISION_SPEED_ESTIMATE"
     ["usec"; "x"; "y"; "z"]
     ["usec"; "x"; "y"; "z"]
     ["uint64_t"; "float"; "float"; "float"]
     "<Qfff" [0; 1; 2; 3]%nat [1; 1; 1; 1]%nat [0; 0; 0; 0]%nat 208%N "<Qfff" 208%N "<Qfff";
  (* MAVLink_vicon_position_estimate_message, lines 5049-5085 *)
  MC 104%N 104%N "VICON_POSITION_ESTIMATE"
     ["usec"; "x"; "y"; "z"; "roll"; "pitch"; "yaw"]
     ["usec"; "x"; "y"; "z"; "roll"; "pitch"; "yaw"]
     ["uint64_t"; "float"; "float"; "float"; "float"; "float"; "float"]
     "<Qffffff" [0; 1; 2; 3; 4; 5; 6]%nat [1; 1; 1; 1; 1; 1; 1]%nat [0; 0; 0; 0; 0; 0; 0]%nat 56%N "<Qffffff" 56%N "<Qffffff";
  (* MAVLink_highres_imu_message, lines 5087-5131 *)
  MC 105%N 105%N "HIGHRES_IMU"
     ["time_usec"; "xacc"; "yacc"; "zacc"; "xgyro"; "ygyro"; "zgyro"; "xmag"; "ymag"; "zmag"; "abs_pressure"; "diff_pressure"; "pressure_alt"; "temperature"; "fields_updated"]
     ["time_usec"; "xacc"; "yacc"; "zacc"; "xgyro"; "ygyro"; "zgyro"; "xmag"; "ymag"; "zmag"; "abs_pressure"; "diff_pressure"; "pressure_alt"; "temperature"; "fields_updated"]
     ["uint64_t"; "float"; "float"; "float"; "float"; "float"; "float"; "float"; "float"; "float"; "float"; "float"; "float"; "float"; "uint16_t"]
     "<QfffffffffffffH" [0; 1; 2; 3; 4; 5; 6; 7; 8; 9; 10; 11; 12; 13; 14]%nat [1; 1; 1; 1; 1; 1; 1; 1; 1; 1; 1; 1; 1; 1; 1]%nat [0; 0; 0; 0; 0; 0; 0; 0; 0; 0; 0; 0; 0; 0; 0]%nat 93%N "<QfffffffffffffH" 93%N "<QfffffffffffffH";
  (* MAVLink_optical_flow_rad_message, lines 5133-5175 *)
  MC 106%N 106%N "OPTICAL_FLOW_RAD"
     ["time_usec"; "sensor_id"; "integration_time_us"; "integrated_x"; "integrated_y"; "integrated_xgyro"; "integrated_ygyro"; "integrated_zgyro"; "temperature"; "quality"; "time_delta_distance_us"; "distance"]
     ["time_usec"; "integration_time_us"; "integrated_x"; "integrated_y"; "integrated_xgyro"; "integrated_ygyro"; "integrated_zgyro"; "time_delta_distance_us"; "distance"; "temperature"; "sensor_id"; "quality"]
     ["uint64_t"; "uint8_t"; "uint32_t"; "float"; "float"; "float"; "float"; "float"; "int16_t"; "uint8_t"; "uint32_t"; "float"]
     "<QIfffffIfhBB" [0; 10; 1; 2; 3; 4; 5; 6; 9; 11; 7; 8]%nat [1; 1; 1; 1; 1; 1; 1; 1; 1; 1; 1; 1]%nat [0; 0; 0; 0; 0; 0; 0; 0; 0; 0; 0; 0]%nat 138%N "<QIfffffIfhBB" 138%N "<QIfffffIfhBB";
  (* MAVLink_hil_sensor_message, lines 5177-5221 *)
  MC 107%N 107%N "HIL_SENSOR"
     ["time_usec"; "xacc"; "yacc"; "zacc"; "xgyro"; "ygyro"; "zgyro"; "xmag"; "ymag"; "zmag"; "abs_pressure"; "diff_pressure"; "pressure_alt"; "temperature"; "fields_updated"]
     ["time_usec"; "xacc"; "yacc"; "zacc"; "xgyro"; "ygyro"; "zgyro"; "xmag"; "ymag"; "zmag"; "abs_pressure"; "diff_pressure"; "pressure_alt"; "temperature"; "fields_updated"]
     ["uint64_t"; "float"; "float"; "float"; "float"; "float"; "float"; "float"; "float"; "float"; "float"; "float"; "float"; "float"; "uint32_t"]
     "<QfffffffffffffI" [0; 1; 2; 3; 4; 5; 6; 7; 8; 9; 10; 11; 12; 13; 14]%nat [1; 1; 1; 1; 1; 1; 1; 1; 1; 1; 1; 1; 1; 1; 1]%nat [0; 0; 0; 0; 0; 0; 0; 0; 0; 0; 0; 0; 0; 0; 0]%nat 108%N "<QfffffffffffffI" 108%N "<QfffffffffffffI";
  (* MAVLink_sim_state_message, lines 5223-5273 *)
  MC 108%N 108%N "SIM_STATE"
     ["q1"; "q2"; "q3"; "q4"; "roll"; "pitch"; "yaw"; "xacc"; "yacc"; "zacc"; "xgyro"; "ygyro"; "zgyro"; "lat"; "lon"; "alt"; "std_dev_horz"; "std_dev_vert"; "vn"; "ve"; "vd"]
     ["q1"; "q2"; "q3"; "q4"; "roll"; "pitch"; "yaw"; "xacc"; "yacc"; "zacc"; "xgyro"; "ygyro"; "zgyro"; "lat"; "lon"; "alt"; "std_dev_horz"; "std_dev_vert"; "vn"; "ve"; "vd"]
     ["float"; "float"; "float"; "float"; "float"; "float"; "float"; "float"; "float"; "float"; "float"; "float"; "float"; "float"; "float"; "float"; "float"; "float"; "float"; "float"; "float"]
     "<fffffffffffffffffffff" [0; 1; 2; 3; 4; 5; 6; 7; 8; 9; 10; 11; 12; 13; 14; 15; 16; 17; 18; 19; 20]%nat [1; 1; 1; 1; 1; 1; 1; 1; 1; 1; 1; 1; 1; 1; 1; 1; 1; 1; 1; 1; 1]%nat [0; 0; 0; 0; 0; 0; 0; 0; 0; 0; 0; 0; 0; 0; 0; 0; 0; 0; 0; 0; 0]%nat 32%N "<fffffffffffffffffffff" 32%N "<fffffffffffffffffffff";
  (* MAVLink_radio_status_message, lines 5275-5311 *)
  MC 109%N 109%N "RADIO_STATUS"
     ["rssi"; "remrssi"; "txbuf"; "noise"; "remnoise"; "rxerrors"; "fixed"]
     ["rxerrors"; "fixed"; "rssi"; "remrssi"; "txbuf"; "noise"; "remnoise"]
     ["uint8_t"; "uint8_t"; "uint8_t"; "uint8_t"; "uint8_t"; "uint16_t"; "uint16_t"]
     "<HHBBBBB" [2; 3; 4; 5; 6; 0; 1]%nat [1; 1; 1; 1; 1; 1; 1]%nat [0; 0; 0; 0; 0; 0; 0]%nat 185%N "<HHBBBBB" 185%N "<HHBBBBB";
  (* MAVLink_file_transfer_protocol_message, lines 5313-5346 *)
  MC 110%N 110%N "FILE_TRANSFER_PROTOCOL"
     ["target_network"; "target_system"; "target_component"; "payload"]
     ["target_network"; "target_system"; "target_component"; "payload"]
     ["uint8_t"; "uint8_t"; "uint8_t"; "uint8_t"]
     "<BBB251B" [0; 1; 2; 3]%nat [1; 1; 1; 251]%nat [0; 0; 0; 251]%nat 84%N "<BBB251B" 84%N "<BBB251B";
  (* MAVLink_timesync_message, lines 5348-5379 *)
  MC 111%N 111%N "TIMESYNC"
     ["tc1"; "ts1"]
     ["tc1"; "ts1"]
     ["int64_t"; "int64_t"]
     "<qq" [0; 1]%nat [1; 1]%nat [0; 0]%nat 34%N "<qq" 34%N "<qq";
  (* MAVLink_camera_trigger_message, lines 5381-5412 *)
  MC 112%N 112%N "CAMERA_TRIGGER"
     ["time_usec"; "seq"]
     ["time_usec"; "seq"]
     ["uint64_t"; "uint32_t"]
     "<QI" [0; 1]%nat [1; 1]%nat [0; 0]%nat 174%N "<QI" 174%N "<QI";
  (* MAVLink_hil_gps_message, lines 5414-5460 *)
  MC 113%N 113%N "HIL_GPS"
     ["time_usec"; "fix_type"; "lat"; "lon"; "alt"; "eph"; "epv"; "vel"; "vn"; "ve"; "vd"; "cog"; "satellites_visible"]
     ["time_usec"; "lat"; "lon"; "alt"; "eph"; "epv"; "vel"; "vn"; "ve"; "vd"; "cog"; "fix_type"; "satellites_visible"]
     ["uint64_t"; "uint8_t"; "int32_t"; "int32_t"; "int32_t"; "uint16_t"; "uint16_t"; "uint16_t"; "int16_t"; "int16_t"; "int16_t"; "uint16_t"; "uint8_t"]
     "<QiiiHHHhhhHBB" [0; 11; 1; 2; 3; 4; 5; 6; 7; 8; 9; 10; 12]%nat [1; 1; 1; 1; 1; 1; 1; 1; 1; 1; 1; 1; 1]%nat [0; 0; 0; 0; 0; 0; 0; 0; 0; 0; 0; 0; 0]%nat 124%N "<QiiiHHHhhhHBB" 124%N "<QiiiHHHhhhHBB";
  (* MAVLink_hil_optical_flow_message, lines 5462-5504 *)
  MC 114%N 114%N "HIL_OPTICAL_FLOW"
     ["time_usec"; "sensor_id"; "integration_time_us"; "integrated_x"; "integrated_y"; "integrated_xgyro"; "integrated_ygyro"; "integrated_zgyro"; "temperature"; "quality"; "time_delta_distance_us"; "distance"]
     ["time_usec"; "integration_time_us"; "integrated_x"; "integrated_y"; "integrated_xgyro"; "integrated_ygyro"; "integrated_zgyro"; "time_delta_distance_us"; "distance"; "temperature"; "sensor_id"; "quality"]
     ["uint64_t"; "uint8_t"; "uint32_t"; "float"; "float"; "float"; "float"; "float"; "int16_t"; "uint8_t"; "uint32_t"; "float"]
     "<QIfffffIfhBB" [0; 10; 1; 2; 3; 4; 5; 6; 9; 11; 7; 8]%nat [1; 1; 1; 1; 1; 1; 1; 1; 1; 1; 1; 1]%nat [0; 0; 0; 0; 0; 0; 0; 0; 0; 0; 0; 0]%nat 237%N "<QIfffffIfhBB" 237%N "<QIfffffIfhBB";
  (* MAVLink_hil_state_quaternion_message, lines 5506-5554 *)
  MC 115%N 115%N "HIL_STATE_QUATERNION"
     ["time_usec"; "attitude_quaternion"; "rollspeed"; "pitchspeed"; "yawspeed"; "lat"; "lon"; "alt"; "vx"; "vy"; "vz"; "ind_airspeed"; "true_airspeed"; "xacc"; "yacc"; "zacc"]
     ["time_usec"; "attitude_quaternion"; "rollspeed"; "pitchspeed"; "yawspeed"; "lat"; "lon"; "alt"; "vx"; "vy"; "vz"; "ind_airspeed"; "true_airspeed"; "xacc"; "yacc"; "zacc"]
     ["uint64_t"; "float"; "float"; "float"; "float"; "int32_t"; "int32_t"; "int32_t"; "int16_t"; "int16_t"; "int16_t"; "uint16_t"; "uint16_t"; "int16_t"; "int16_t"; "int16_t"]
     "<Q4ffffiiihhhHHhhh" [0; 1; 2; 3; 4; 5; 6; 7; 8; 9; 10; 11; 12; 13; 14; 15]%nat [1; 4; 1; 1; 1; 1; 1; 1; 1; 1; 1; 1; 1; 1; 1; 1]%nat [0; 4; 0; 0; 0; 0; 0; 0; 0; 0; 0; 0; 0; 0; 0; 0]%nat 4%N "<Q4ffffiiihhhHHhhh" 4%N "<Q4ffffiiihhhHHhhh";
  (* MAVLink_scaled_imu2_message, lines 5556-5597 *)
  MC 116%N 116%N "SCALED_IMU2"
     ["time_boot_ms"; "xacc"; "yacc"; "zacc"; "xgyro"; "ygyro"; "zgyro"; "xmag"; "ymag"; "zmag"]
     ["time_boot_ms"; "xacc"; "yacc"; "zacc"; "xgyro"; "ygyro"; "zgyro"; "xmag"; "ymag"; "zmag"]
     ["uint32_t"; "float"; "float"; "float"; "float"; "float"; "float"; "float"; "float"; "float"]
     "<Ifffffffff" [0; 1; 2; 3; 4; 5; 6; 7; 8; 9]%nat [1; 1; 1; 1; 1; 1; 1; 1; 1; 1]%nat [0; 0; 0; 0; 0; 0; 0; 0; 0; 0]%nat 33%N "<Ifffffffff" 33%N "<Ifffffffff";
  (* MAVLink_log_request_list_message, lines 5599-5633 *)
  MC 117%N 117%N "LOG_REQUEST_LIST"
     ["target_system"; "target_component"; "start"; "end"]
     ["start"; "end"; "target_system"; "target_component"]
     ["uint8_t"; "uint8_t"; "uint16_t"; "uint16_t"]
     "<HHBB" [2; 3; 0; 1]%nat [1; 1; 1; 1]%nat [0; 0; 0; 0]%nat 128%N "<HHBB" 128%N "<HHBB";
  (* MAVLink_log_entry_message, lines 5635-5669 *)
  MC 118%N 118%N "LOG_ENTRY"
     ["id"; "num_logs"; "last_log_num"; "time_utc"; "size"]
     ["time_utc"; "size"; "id"; "num_logs"; "last_log_num"]
     ["uint16_t"; "uint16_t"; "uint16_t"; "uint32_t"; "uint32_t"]
     "<IIHHH" [2; 3; 4; 0; 1]%nat [1; 1; 1; 1; 1]%nat [0; 0; 0; 0; 0]%nat 56%N "<IIHHH" 56%N "<IIHHH";
  (* MAVLink_log_request_data_message, lines 5671-5705 *)
  MC 119%N 119%N "LOG_REQUEST_DATA"
     ["target_system"; "target_component"; "id"; "ofs"; "count"]
     ["ofs"; "count"; "id"; "target_system"; "target_component"]
     ["uint8_t"; "uint8_t"; "uint16_t"; "uint32_t"; "uint32_t"]
     "<IIHBB" [3; 4; 2; 0; 1]%nat [1; 1; 1; 1; 1]%nat [0; 0; 0; 0; 0]%nat 116%N "<IIHBB" 116%N "<IIHBB";
  (* MAVLink_log_data_message, lines 5707-5740 *)
  MC 120%N 120%N "LOG_DATA"
     ["id"; "ofs"; "count"; "data"]
     ["ofs"; "id"; "count"; "data"]
     ["uint16_t"; "uint32_t"; "uint8_t"; "uint8_t"]
     "<IHB90B" [1; 0; 2; 3]%nat [1; 1; 1; 90]%nat [0; 0; 0; 90]%nat 134%N "<IHB90B" 134%N "<IHB90B";
  (* MAVLink_log_erase_message, lines 5742-5773 *)
  MC 121%N 121%N "LOG_ERASE"
     ["target_system"; "target_component"]
     ["target_system"; "target_component"]
     ["uint8_t"; "uint8_t"]
     "<BB" [0; 1]%nat [1; 1]%nat [0; 0]%nat 237%N "<BB" 237%N "<BB";
  (* MAVLink_log_request_end_message, lines 5775-5806 *)
  MC 122%N 122%N "LOG_REQUEST_END"
     ["target_system"; "target_component"]
     ["target_system"; "target_component"]
     ["uint8_t"; "uint8_t"]
     "<BB" [0; 1]%nat [1; 1]%nat [0; 0]%nat 203%N "<BB" 203%N "<BB";
  (* MAVLink_gps_inject_data_message, lines 5808-5841 *)
  MC 123%N 123%N "GPS_INJECT_DATA"
     ["target_system"; "target_component"; "len"; "data"]
     ["target_system"; "target_component"; "len"; "data"]
     ["uint8_t"; "uint8_t"; "uint8_t"; "uint8_t"]
     "<BBB110B" [0; 1; 2; 3]%nat [1; 1; 1; 110]%nat [0; 0; 0; 110]%nat 250%N "<BBB110B" 250%N "<BBB110B";
  (* MAVLink_gps2_raw_message, lines 5843-5885 *)
  MC 124%N 124%N "GPS2_RAW"
     ["time_usec"; "fix_type"; "lat"; "lon"; "alt"; "eph"; "epv"; "vel"; "cog"; "satellites_visible"; "dgps_numch"; "dgps_age"]
     ["time_usec"; "lat"; "lon"; "alt"; "dgps_age"; "eph"; "epv"; "vel"; "cog"; "fix_type"; "satellites_visible"; "dgps_numch"]
     ["uint64_t"; "uint8_t"; "int32_t"; "int32_t"; "int32_t"; "uint16_t"; "uint16_t"; "uint16_t"; "uint16_t"; "uint8_t"; "uint8_t"; "uint32_t"]
     "<QiiiIHHHHBBB" [0; 9; 1; 2; 3; 5; 6; 7; 8; 10; 11; 4]%nat [1; 1; 1; 1; 1; 1; 1; 1; 1; 1; 1; 1]%nat [0; 0; 0; 0; 0; 0; 0; 0; 0; 0; 0; 0]%nat 87%N "<QiiiIHHHHBBB" 87%N "<QiiiIHHHHBBB";
  (* MAVLink_power_status_message, lines 5887-5919 *)
  MC 125%N 125%N "POWER_STATUS"
     ["Vcc"; "Vservo"; "flags"]
     ["Vcc"; "Vservo"; "flags"]
     ["uint16_t"; "uint16_t"; "uint16_t"]
     "<HHH" [0; 1; 2]%nat [1; 1; 1]%nat [0; 0; 0]%nat 203%N "<HHH" 203%N "<HHH";
  (* MAVLink_serial_control_message, lines 5921-5960 *)
  MC 126%N 126%N "SERIAL_CONTROL"
     ["device"; "flags"; "timeout"; "baudrate"; "count"; "data"]
     ["baudrate"; "timeout"; "device"; "flags"; "count"; "data"]
     ["uint8_t"; "uint8_t"; "uint16_t"; "uint32_t"; "uint8_t"; "uint8_t"]
     "<IHBBB80B" [2; 3; 1; 0; 4; 5]%nat [1; 1; 1; 1; 1; 80]%nat [0; 0; 0; 0; 0; 80]%nat 30%N "<IHBBB80B" 30%N "<IHBBB80B";
  (* MAVLink_gps_rtk_message, lines 5962-6005 *)
  MC 127%N 127%N "GPS_RTK"
     ["time_last_baseline_ms"; "rtk_receiver_id"; "wn"; "tow"; "rtk_health"; "rtk_rate"; "nsats"; "baseline_coords_type"; "baseline_a_mm"; "baseline_b_mm"; "baseline_c_mm"; "accuracy"; "iar_num_hypotheses"]
     ["time_last_baseline_ms"; "tow"; "baseline_a_mm"; "baseline_b_mm"; "baseline_c_mm"; "accuracy"; "iar_num_hypotheses"; "wn"; "rtk_receiver_id"; "rtk_health"; "rtk_rate"; "nsats"; "baseline_coords_type"]
     ["uint32_t"; "uint8_t"; "uint16_t"; "uint32_t"; "uint8_t"; "uint8_t"; "uint8_t"; "uint8_t"; "int32_t"; "int32_t"; "int32_t"; "uint32_t"; "int32_t"]
     "<IIiiiIiHBBBBB" [0; 8; 7; 1; 9; 10; 11; 12; 2; 3; 4; 5; 6]%nat [1; 1; 1; 1; 1; 1; 1; 1; 1; 1; 1; 1; 1]%nat [0; 0; 0; 0; 0; 0; 0; 0; 0; 0; 0; 0; 0]%nat 25%N "<IIiiiIiHBBBBB" 25%N "<IIiiiIiHBBBBB";
  (* MAVLink_gps2_rtk_message, lines 6007-6050 *)
  MC 128%N 128%N "GPS2_RTK"
     ["time_last_baseline_ms"; "rtk_receiver_id"; "wn"; "tow"; "rtk_health"; "rtk_rate"; "nsats"; "baseline_coords_type"; "baseline_a_mm"; "baseline_b_mm"; "baseline_c_mm"; "accuracy"; "iar_num_hypotheses"]
     ["time_last_baseline_ms"; "tow"; "baseline_a_mm"; "baseline_b_mm"; "baseline_c_mm"; "accuracy"; "iar_num_hypotheses"; "wn"; "rtk_receiver_id"; "rtk_health"; "rtk_rate"; "nsats"; "baseline_coords_type"]
     ["uint32_t"; "uint8_t"; "uint16_t"; "uint32_t"; "uint8_t"; "uint8_t"; "uint8_t"; "uint8_t"; "int32_t"; "int32_t"; "int32_t"; "uint32_t"; "int32_t"]
     "<IIiiiIiHBBBBB" [0; 8; 7; 1; 9; 10; 11; 12; 2; 3; 4; 5; 6]%nat [1; 1; 1; 1; 1; 1; 1; 1; 1; 1; 1; 1; 1]%nat [0; 0; 0; 0; 0; 0; 0; 0; 0; 0; 0; 0; 0]%nat 226%N "<IIiiiIiHBBBBB" 226%N "<IIiiiIiHBBBBB";
  (* MAVLink_scaled_imu3_message, lines 6052-6092 *)
  MC 129%N 129%N "SCALED_IMU3"
     ["time_boot_ms"; "xacc"; "yacc"; "zacc"; "xgyro"; "ygyro"; "zgyro"; "xmag"; "ymag"; "zmag"]
     ["time_boot_ms"; "xacc"; "yacc"; "zacc"; "xgyro"; "ygyro"; "zgyro"; "xmag"; "ymag"; "zmag"]
     ["uint32_t"; "float"; "float"; "float"; "float"; "float"; "float"; "float"; "float"; "float"]
     "<Ifffffffff" [0; 1; 2; 3; 4; 5; 6; 7; 8; 9]%nat [1; 1; 1; 1; 1; 1; 1; 1; 1; 1]%nat [0; 0; 0; 0; 0; 0; 0; 0; 0; 0]%nat 191%N "<Ifffffffff" 191%N "<Ifffffffff";
  (* MAVLink_data_transmission_handshake_message, lines 6094-6130 *)
  MC 130%N 130%N "DATA_TRANSMISSION_HANDSHAKE"
     ["type"; "size"; "width"; "height"; "packets"; "payload"; "jpg_quality"]
     ["size"; "width"; "height"; "packets"; "type"; "payload"; "jpg_quality"]
     ["uint8_t"; "uint32_t"; "uint16_t"; "uint16_t"; "uint16_t"; "uint8_t"; "uint8_t"]
     "<IHHHBBB" [4; 0; 1; 2; 3; 5; 6]%nat [1; 1; 1; 1; 1; 1; 1]%nat [0; 0; 0; 0; 0; 0; 0]%nat 29%N "<IHHHBBB" 29%N "<IHHHBBB";
  (* MAVLink_encapsulated_data_message, lines 6132-6163 *)
  MC 131%N 131%N "ENCAPSULATED_DATA"
     ["seqnr"; "data"]
     ["seqnr"; "data"]
     ["uint16_t"; "uint8_t"]
     "<H253B" [0; 1]%nat [1; 253]%nat [0; 253]%nat 223%N "<H253B" 223%N "<H253B";
  (* MAVLink_distance_sensor_message, lines 6165-6202 *)
  MC 132%N 132%N "DISTANCE_SENSOR"
     ["time_boot_ms"; "min_distance"; "max_distance"; "current_distance"; "type"; "id"; "orientation"; "covariance"]
     ["time_boot_ms"; "min_distance"; "max_distance"; "current_distance"; "type"; "id"; "orientation"; "covariance"]
     ["uint32_t"; "uint16_t"; "uint16_t"; "uint16_t"; "uint8_t"; "uint8_t"; "uint8_t"; "uint8_t"]
     "<IHHHBBBB" [0; 1; 2; 3; 4; 5; 6; 7]%nat [1; 1; 1; 1; 1; 1; 1; 1]%nat [0; 0; 0; 0; 0; 0; 0; 0]%nat 85%N "<IHHHBBBB" 85%N "<IHHHBBBB";
  (* MAVLink_terrain_request_message, lines 6204-6237 *)
  MC 133%N 133%N "TERRAIN_REQUEST"
     ["lat"; "lon"; "grid_spacing"; "mask"]
     ["mask"; "lat"; "lon"; "grid_spacing"]
     ["int32_t"; "int32_t"; "uint16_t"; "uint64_t"]
     "<QiiH" [1; 2; 3; 0]%nat [1; 1; 1; 1]%nat [0; 0; 0; 0]%nat 6%N "<QiiH" 6%N "<QiiH";
  (* MAVLink_terrain_data_message, lines 6239-6274 *)
  MC 134%N 134%N "TERRAIN_DATA"
     ["lat"; "lon"; "grid_spacing"; "gridbit"; "data"]
     ["lat"; "lon"; "grid_spacing"; "data"; "gridbit"]
     ["int32_t"; "int32_t"; "uint16_t"; "uint8_t"; "int16_t"]
     "<iiH16hB" [0; 1; 2; 4; 3]%nat [1; 1; 1; 16; 1]%nat [0; 0; 0; 16; 0]%nat 229%N "<iiH16hB" 229%N "<iiH16hB";
  (* MAVLink_terrain_check_message, lines 6276-6309 *)
  MC 135%N 135%N "TERRAIN_CHECK"
     ["lat"; "lon"]
     ["lat"; "lon"]
     ["int32_t"; "int32_t"]
     "<ii" [0; 1]%nat [1; 1]%nat [0; 0]%nat 203%N "<ii" 203%N "<ii";
  (* MAVLink_terrain_report_message, lines 6311-6347 *)
  MC 136%N 136%N "TERRAIN_REPORT"
     ["lat"; "lon"; "spacing"; "terrain_height"; "current_height"; "pending"; "loaded"]
     ["lat"; "lon"; "terrain_height"; "current_height"; "spacing"; "pending"; "loaded"]
     ["int32_t"; "int32_t"; "uint16_t"; "float"; "float"; "uint16_t"; "uint16_t"]
     "<iiffHHH" [0; 1; 4; 2; 3; 5; 6]%nat [1; 1; 1; 1; 1; 1; 1]%nat [0; 0; 0; 0; 0; 0; 0]%nat 1%N "<iiffHHH" 1%N "<iiffHHH";
  (* MAVLink_scaled_pressure2_message, lines 6349-6382 *)
  MC 137%N 137%N "SCALED_PRESSURE2"
     ["time_boot_ms"; "press_abs"; "press_diff"; "temperature"]
     ["time_boot_ms"; "press_abs"; "press_diff"; "temperature"]
     ["uint32_t"; "float"; "float"; "float"]
     "<Ifff" [0; 1; 2; 3]%nat [1; 1; 1; 1]%nat [0; 0; 0; 0]%nat 97%N "<Ifff" 97%N "<Ifff";
  (* MAVLink_att_pos_mocap_message, lines 6384-6418 *)
  MC 138%N 138%N "ATT_POS_MOCAP"
     ["time_usec"; "q"; "x"; "y"; "z"]
     ["time_usec"; "q"; "x"; "y"; "z"]
     ["uint64_t"; "float"; "float"; "float"; "float"]
     "<Q4ffff" [0; 1; 2; 3; 4]%nat [1; 4; 1; 1; 1]%nat [0; 4; 0; 0; 0]%nat 109%N "<Q4ffff" 109%N "<Q4ffff";
  (* MAVLink_set_actuator_control_target_message, lines 6420-6454 *)
  MC 139%N 139%N "SET_ACTUATOR_CONTROL_TARGET"
     ["time_usec"; "group_mlx"; "target_system"; "target_component"; "controls"]
     ["time_usec"; "controls"; "group_mlx"; "target_system"; "target_component"]
     ["uint64_t"; "uint8_t"; "uint8_t"; "uint8_t"; "float"]
     "<Q8fBBB" [0; 2; 3; 4; 1]%nat [1; 8; 1; 1; 1]%nat [0; 8; 0; 0; 0]%nat 168%N "<Q8fBBB" 168%N "<Q8fBBB";
  (* MAVLink_actuator_control_target_message, lines 6456-6488 *)
  MC 140%N 140%N "ACTUATOR_CONTROL_TARGET"
     ["time_usec"; "group_mlx"; "controls"]
     ["time_usec"; "controls"; "group_mlx"]
     ["uint64_t"; "uint8_t"; "float"]
     "<Q8fB" [0; 2; 1]%nat [1; 8; 1]%nat [0; 8; 0]%nat 181%N "<Q8fB" 181%N "<Q8fB";
  (* MAVLink_altitude_message, lines 6490-6526 *)
  MC 141%N 141%N "ALTITUDE"
     ["time_usec"; "altitude_monotonic"; "altitude_amsl"; "altitude_local"; "altitude_relative"; "altitude_terrain"; "bottom_clearance"]
     ["time_usec"; "altitude_monotonic"; "altitude_amsl"; "altitude_local"; "altitude_relative"; "altitude_terrain"; "bottom_clearance"]
     ["uint64_t"; "float"; "float"; "float"; "float"; "float"; "float"]
     "<Qffffff" [0; 1; 2; 3; 4; 5; 6]%nat [1; 1; 1; 1; 1; 1; 1]%nat [0; 0; 0; 0; 0; 0; 0]%nat 47%N "<Qffffff" 47%N "<Qffffff";
  (* MAVLink_resource_request_message, lines 6528-6563 *)
  MC 142%N 142%N "RESOURCE_REQUEST"
     ["request_id"; "uri_type"; "uri"; "transfer_type"; "storage"]
     ["request_id"; "uri_type"; "uri"; "transfer_type"; "storage"]
     ["uint8_t"; "uint8_t"; "uint8_t"; "uint8_t"; "uint8_t"]
     "<BB120BB120B" [0; 1; 2; 3; 4]%nat [1; 1; 120; 1; 120]%nat [0; 0; 120; 0; 120]%nat 72%N "<BB120BB120B" 72%N "<BB120BB120B";
  (* MAVLink_scaled_pressure3_message, lines 6565-6598 *)
  MC 143%N 143%N "SCALED_PRESSURE3"
     ["time_boot_ms"; "press_abs"; "press_diff"; "temperature"]
     ["time_boot_ms"; "press_abs"; "press_diff"; "temperature"]
     ["uint32_t"; "float"; "float"; "float"]
     "<Ifff" [0; 1; 2; 3]%nat [1; 1; 1; 1]%nat [0; 0; 0; 0]%nat 18%N "<Ifff" 18%N "<Ifff";
  (* MAVLink_control_system_state_message, lines 6600-6647 *)
  MC 146%N 146%N "CONTROL_SYSTEM_STATE"
     ["time_usec"; "x_acc"; "y_acc"; "z_acc"; "x_vel"; "y_vel"; "z_vel"; "x_pos"; "y_pos"; "z_pos"; "airspeed"; "vel_variance"; "pos_variance"; "q"; "roll_rate"; "pitch_rate"; "yaw_rate"]
     ["time_usec"; "x_acc"; "y_acc"; "z_acc"; "x_vel"; "y_vel"; "z_vel"; "x_pos"; "y_pos"; "z_pos"; "airspeed"; "vel_variance"; "pos_variance"; "q"; "roll_rate"; "pitch_rate"; "yaw_rate"]
     ["uint64_t"; "float"; "float"; "float"; "float"; "float"; "float"; "float"; "float"; "float"; "float"; "float"; "float"; "float"; "float"; "float"; "float"]
     "<Qffffffffff3f3f4ffff" [0; 1; 2; 3; 4; 5; 6; 7; 8; 9; 10; 11; 12; 13; 14; 15; 16]%nat [1; 1; 1; 1; 1; 1; 1; 1; 1; 1; 1; 3; 3; 4; 1; 1; 1]%nat [0; 0; 0; 0; 0; 0; 0; 0; 0; 0; 0; 3; 3; 4; 0; 0; 0]%nat 103%N "<Qffffffffff3f3f4ffff" 103%N "<Qffffffffff3f3f4ffff";
  (* MAVLink_battery_status_message, lines 6649-6687 *)
  MC 147%N 147%N "BATTERY_STATUS"
     ["id"; "battery_function"; "type"; "temperature"; "voltages"; "current_battery"; "current_consumed"; "energy_consumed"; "battery_remaining"]
     ["current_consumed"; "energy_consumed"; "temperature"; "voltages"; "current_battery"; "id"; "battery_function"; "type"; "battery_remaining"]
     ["uint8_t"; "uint8_t"; "uint8_t"; "int16_t"; "uint16_t"; "int16_t"; "int32_t"; "int32_t"; "int8_t"]
     "<iih10HhBBBb" [5; 6; 7; 2; 3; 4; 0; 1; 8]%nat [1; 1; 1; 10; 1; 1; 1; 1; 1]%nat [0; 0; 0; 10; 0; 0; 0; 0; 0]%nat 154%N "<iih10HhBBBb" 154%N "<iih10HhBBBb";
  (* MAVLink_autopilot_version_message, lines 6689-6730 *)
  MC 148%N 148%N "AUTOPILOT_VERSION"
     ["capabilities"; "main_sw_build_time"; "main_sw_version"; "mavlink_sw_version"; "os_sw_version"; "board_version"; "main_custom_version"; "mavlink_custom_version"; "os_custom_version"; "vendor_id"; "product_id"; "uid"]
     ["capabilities"; "main_sw_build_time"; "main_sw_version"; "mavlink_sw_version"; "os_sw_version"; "board_version"; "uid"; "vendor_id"; "product_id"; "main_custom_version"; "mavlink_custom_version"; "os_custom_version"]
     ["uint64_t"; "uint64_t"; "uint32_t"; "uint32_t"; "uint32_t"; "uint32_t"; "uint8_t"; "uint8_t"; "uint8_t"; "uint16_t"; "uint16_t"; "uint32_t"]
     "<QQIIII3IHH8B8B8B" [0; 1; 2; 3; 4; 5; 9; 10; 11; 7; 8; 6]%nat [1; 1; 1; 1; 1; 1; 3; 1; 1; 8; 8; 8]%nat [0; 0; 0; 0; 0; 0; 3; 0; 0; 8; 8; 8]%nat 121%N "<QQIIII3IHH8B8B8B" 121%N "<QQIIII3IHH8B8B8B";
  (* MAVLink_landing_target_message, lines 6732-6770 *)
  MC 149%N 149%N "LANDING_TARGET"
     ["time_usec"; "target_num"; "frame"; "angle_x"; "angle_y"; "distance"; "size_x"; "size_y"]
     ["time_usec"; "angle_x"; "angle_y"; "distance"; "size_x"; "size_y"; "target_num"; "frame"]
     ["uint64_t"; "uint8_t"; "uint8_t"; "float"; "float"; "float"; "float"; "float"]
     "<QfffffBB" [0; 6; 7; 1; 2; 3; 4; 5]%nat [1; 1; 1; 1; 1; 1; 1; 1]%nat [0; 0; 0; 0; 0; 0; 0; 0]%nat 200%N "<QfffffBB" 200%N "<QfffffBB";
  (* MAVLink_vibration_message, lines 6772-6808 *)
  MC 241%N 241%N "VIBRATION"
     ["time_usec"; "vibration_x"; "vibration_y"; "vibration_z"; "clipping_0"; "clipping_1"; "clipping_2"]
     ["time_usec"; "vibration_x"; "vibration_y"; "vibration_z"; "clipping_0"; "clipping_1"; "clipping_2"]
     ["uint64_t"; "float"; "float"; "float"; "uint32_t"; "uint32_t"; "uint32_t"]
     "<QfffIII" [0; 1; 2; 3; 4; 5; 6]%nat [1; 1; 1; 1; 1; 1; 1]%nat [0; 0; 0; 0; 0; 0; 0]%nat 90%N "<QfffIII" 90%N "<QfffIII";
  (* MAVLink_home_position_message, lines 6810-6861 *)
  MC 242%N 242%N "HOME_POSITION"
     ["latitude"; "longitude"; "altitude"; "x"; "y"; "z"; "q"; "approach_x"; "approach_y"; "approach_z"]
     ["latitude"; "longitude"; "altitude"; "x"; "y"; "z"; "q"; "approach_x"; "approach_y"; "approach_z"]
     ["int32_t"; "int32_t"; "float"; "float"; "float"; "float"; "float"; "float"; "float"; "float"]
     "<iiffff4ffff" [0; 1; 2; 3; 4; 5; 6; 7; 8; 9]%nat [1; 1; 1; 1; 1; 1; 4; 1; 1; 1]%nat [0; 0; 0; 0; 0; 0; 4; 0; 0; 0]%nat 166%N "<iiffff4ffff" 166%N "<iiffff4ffff";
  (* MAVLink_set_home_position_message, lines 6863-6913 *)
  MC 243%N 243%N "SET_HOME_POSITION"
     ["target_system"; "latitude"; "longitude"; "altitude"; "x"; "y"; "z"; "q"; "approach_x"; "approach_y"; "approach_z"]
     ["latitude"; "longitude"; "altitude"; "x"; "y"; "z"; "q"; "approach_x"; "approach_y"; "approach_z"; "target_system"]
     ["uint8_t"; "int32_t"; "int32_t"; "float"; "float"; "float"; "float"; "float"; "float"; "float"; "float"]
     "<iiffff4ffffB" [10; 0; 1; 2; 3; 4; 5; 6; 7; 8; 9]%nat [1; 1; 1; 1; 1; 1; 4; 1; 1; 1; 1]%nat [0; 0; 0; 0; 0; 0; 4; 0; 0; 0; 0]%nat 214%N "<iiffff4ffffB" 214%N "<iiffff4ffffB";
  (* MAVLink_message_interval_message, lines 6915-6946 *)
  MC 244%N 244%N "MESSAGE_INTERVAL"
     ["message_id"; "interval_us"]
     ["interval_us"; "message_id"]
     ["uint16_t"; "int32_t"]
     "<iH" [1; 0]%nat [1; 1]%nat [0; 0]%nat 95%N "<iH" 95%N "<iH";
  (* MAVLink_extended_sys_state_message, lines 6948-6979 *)
  MC 245%N 245%N "EXTENDED_SYS_STATE"
     ["vtol_state"; "landed_state"]
     ["vtol_state"; "landed_state"]
     ["uint8_t"; "uint8_t"]
     "<BB" [0; 1]%nat [1; 1]%nat [0; 0]%nat 130%N "<BB" 130%N "<BB";
  (* MAVLink_adsb_vehicle_message, lines 6981-7023 *)
  MC 246%N 246%N "ADSB_VEHICLE"
     ["ICAO_address"; "lat"; "lon"; "altitude_type"; "altitude"; "heading"; "hor_velocity"; "ver_velocity"; "callsign"; "emitter_type"; "tslc"; "flags"; "squawk"]
     ["ICAO_address"; "lat"; "lon"; "altitude"; "heading"; "hor_velocity"; "ver_velocity"; "flags"; "squawk"; "altitude_type"; "callsign"; "emitter_type"; "tslc"]
     ["uint32_t"; "int32_t"; "int32_t"; "uint8_t"; "int32_t"; "uint16_t"; "uint16_t"; "uint16_t"; "char"; "uint8_t"; "uint8_t"; "uint16_t"; "uint16_t"]
     "<IiiiHHHHHB9sBB" [0; 1; 2; 9; 3; 4; 5; 6; 10; 11; 12; 7; 8]%nat [1; 1; 1; 1; 1; 1; 1; 1; 1; 1; 1; 1; 1]%nat [0; 0; 0; 0; 0; 0; 0; 0; 0; 0; 9; 0; 0]%nat 158%N "<IiiiHHHHHB9sBB" 158%N "<IiiiHHHHHB9sBB";
  (* MAVLink_v2_extension_message, lines 7025-7060 *)
  MC 248%N 248%N "V2_EXTENSION"
     ["target_network"; "target_system"; "target_component"; "message_type"; "payload"]
     ["message_type"; "target_network"; "target_system"; "target_component"; "payload"]
     ["uint8_t"; "uint8_t"; "uint8_t"; "uint16_t"; "uint8_t"]
     "<HBBB249B" [1; 2; 3; 0; 4]%nat [1; 1; 1; 1; 249]%nat [0; 0; 0; 0; 249]%nat 8%N "<HBBB249B" 8%N "<HBBB249B";
  (* MAVLink_memory_vect_message, lines 7062-7097 *)
  MC 249%N 249%N "MEMORY_VECT"
     ["address"; "ver"; "type"; "value"]
     ["address"; "ver"; "type"; "value"]
     ["uint16_t"; "uint8_t"; "uint8_t"; "int8_t"]
     "<HBB32b" [0; 1; 2; 3]%nat [1; 1; 1; 32]%nat [0; 0; 0; 32]%nat 204%N "<HBB32b" 204%N "<HBB32b";
  (* MAVLink_debug_vect_message, lines 7099-7133 *)
  MC 250%N 250%N "DEBUG_VECT"
     ["name"; "time_usec"; "x"; "y"; "z"]
     ["time_usec"; "x"; "y"; "z"; "name"]
     ["char"; "uint64_t"; "float"; "float"; "float"]
     "<Qfff10s" [4; 0; 1; 2; 3]%nat [1; 1; 1; 1; 1]%nat [0; 0; 0; 0; 10]%nat 49%N "<Qfff10s" 49%N "<Qfff10s";
  (* MAVLink_named_value_float_message, lines 7135-7169 *)
  MC 251%N 251%N "NAMED_VALUE_FLOAT"
     ["time_boot_ms"; "name"; "value"]
     ["time_boot_ms"; "value"; "name"]
     ["uint32_t"; "char"; "float"]
     "<If10s" [0; 2; 1]%nat [1; 1; 1]%nat [0; 0; 10]%nat 170%N "<If10s" 170%N "<If10s";
  (* MAVLink_named_value_int_message, lines 7171-7205 *)
  MC 252%N 252%N "NAMED_VALUE_INT"
     ["time_boot_ms"; "name"; "value"]
     ["time_boot_ms"; "value"; "name"]
     ["uint32_t"; "char"; "int32_t"]
     "<Ii10s" [0; 2; 1]%nat [1; 1; 1]%nat [0; 0; 10]%nat 44%N "<Ii10s" 44%N "<Ii10s";
  (* MAVLink_statustext_message, lines 7207-7243 *)
  MC 253%N 253%N "STATUSTEXT"
     ["severity"; "text"]
     ["severity"; "text"]
     ["uint8_t"; "char"]
     "<B50s" [0; 1]%nat [1; 1]%nat [0; 50]%nat 83%N "<B50s" 83%N "<B50s";
  (* MAVLink_debug_message, lines 7245-7279 *)
  MC 254%N 254%N "DEBUG"
     ["time_boot_ms"; "ind"; "value"]
     ["time_boot_ms"; "value"; "ind"]
     ["uint32_t"; "uint8_t"; "float"]
     "<IfB" [0; 2; 1]%nat [1; 1; 1]%nat [0; 0; 0]%nat 46%N "<IfB" 46%N "<IfB";
  (* MAVLink_altimeter_sensor_message, lines 7281-7313 *)
  MC 211%N 211%N "ALTIMETER_SENSOR"
     ["time_boot_ms"; "Altitude_front"; "Altitude_back"]
     ["time_boot_ms"; "Altitude_front"; "Altitude_back"]
     ["uint32_t"; "float"; "float"]
     "<Iff" [0; 1; 2]%nat [1; 1; 1]%nat [0; 0; 0]%nat 154%N "<Iff" 154%N "<Iff";
  (* MAVLink_scaled_svs_message, lines 7315-7350 *)
  MC 212%N 212%N "SCALED_SVS"
     ["time_boot_ms"; "Speed_of_Sound"; "Depth"; "Temperature"; "Status"; "Reserved"]
     ["time_boot_ms"; "Speed_of_Sound"; "Depth"; "Reserved"; "Temperature"; "Status"]
     ["uint32_t"; "float"; "float"; "uint16_t"; "uint8_t"; "float"]
     "<IfffHB" [0; 1; 2; 4; 5; 3]%nat [1; 1; 1; 1; 1; 1]%nat [0; 0; 0; 0; 0; 0]%nat 205%N "<IfffHB" 205%N "<IfffHB";
  (* MAVLink_ctd_status_message, lines 7352-7387 *)
  MC 213%N 213%N "CTD_STATUS"
     ["time_boot_ms"; "Conductivity"; "Depth"; "Temperature"; "Status"; "Reserved"]
     ["time_boot_ms"; "Conductivity"; "Depth"; "Reserved"; "Temperature"; "Status"]
     ["uint32_t"; "float"; "float"; "uint16_t"; "uint8_t"; "float"]
     "<IfffHB" [0; 1; 2; 4; 5; 3]%nat [1; 1; 1; 1; 1; 1]%nat [0; 0; 0; 0; 0; 0]%nat 188%N "<IfffHB" 188%N "<IfffHB";
  (* MAVLink_motor_status_message, lines 7389-7428 *)
  MC 214%N 214%N "MOTOR_STATUS"
     ["time_boot_ms"; "motor_num"; "rpm"; "voltage"; "current"; "Status"; "Fault"; "temperature"; "pressure"]
     ["time_boot_ms"; "pressure"; "rpm"; "voltage"; "current"; "temperature"; "motor_num"; "Status"; "Fault"]
     ["uint32_t"; "uint8_t"; "int16_t"; "uint16_t"; "uint16_t"; "uint8_t"; "uint8_t"; "uint16_t"; "float"]
     "<IfhHHHBBB" [0; 6; 2; 3; 4; 7; 8; 5; 1]%nat [1; 1; 1; 1; 1; 1; 1; 1; 1]%nat [0; 0; 0; 0; 0; 0; 0; 0; 0]%nat 142%N "<IfhHHHBBB" 142%N "<IfhHHHBBB";
  (* MAVLink_rf_modem_status_message, lines 7430-7465 *)
  MC 215%N 215%N "RF_MODEM_STATUS"
     ["time_boot_ms"; "Bit_Rate"; "Status"; "current"; "Reserved"; "Reserved2"]
     ["time_boot_ms"; "Bit_Rate"; "Reserved"; "Reserved2"; "current"; "Status"]
     ["uint32_t"; "uint32_t"; "uint8_t"; "uint16_t"; "float"; "float"]
     "<IIffHB" [0; 1; 5; 4; 2; 3]%nat [1; 1; 1; 1; 1; 1]%nat [0; 0; 0; 0; 0; 0]%nat 203%N "<IIffHB" 203%N "<IIffHB";
  (* MAVLink_system_onoff_req_message, lines 7467-7499 *)
  MC 216%N 216%N "SYSTEM_ONOFF_REQ"
     ["time_boot_ms"; "status"]
     ["time_boot_ms"; "status"]
     ["uint32_t"; "uint16_t"]
     "<IH" [0; 1]%nat [1; 1]%nat [0; 0]%nat 190%N "<IH" 190%N "<IH";
  (* MAVLink_system_onoff_status_message, lines 7501-7533 *)
  MC 217%N 217%N "SYSTEM_ONOFF_STATUS"
     ["time_boot_ms"; "status"]
     ["time_boot_ms"; "status"]
     ["uint32_t"; "uint16_t"]
     "<IH" [0; 1]%nat [1; 1]%nat [0; 0]%nat 79%N "<IH" 79%N "<IH";
  (* MAVLink_chamber_status_message, lines 7535-7570 *)
  MC 218%N 218%N "CHAMBER_STATUS"
     ["time_boot_ms"; "chamber_num"; "pressure"; "temperature"; "humidity"]
     ["time_boot_ms"; "temperature"; "humidity"; "chamber_num"; "pressure"]
     ["uint32_t"; "uint8_t"; "uint8_t"; "uint16_t"; "uint16_t"]
     "<IHHBB" [0; 3; 4; 1; 2]%nat [1; 1; 1; 1; 1]%nat [0; 0; 0; 0; 0]%nat 28%N "<IHHBB" 28%N "<IHHBB";
  (* MAVLink_task_status_message, lines 7572-7612 *)
  MC 219%N 219%N "TASK_STATUS"
     ["taskID"; "task_status"; "time"; "task_time"; "task_count"; "parse_success_count"; "parse_error_count"; "interupt_count"; "rst_count"; "err1"; "err2"]
     ["time"; "task_time"; "task_count"; "parse_success_count"; "parse_error_count"; "interupt_count"; "rst_count"; "taskID"; "task_status"; "err1"; "err2"]
     ["uint8_t"; "uint8_t"; "uint16_t"; "uint16_t"; "uint16_t"; "uint16_t"; "uint16_t"; "uint16_t"; "uint16_t"; "uint8_t"; "uint8_t"]
     "<HHHHHHHBBBB" [7; 8; 0; 1; 2; 3; 4; 5; 6; 9; 10]%nat [1; 1; 1; 1; 1; 1; 1; 1; 1; 1; 1]%nat [0; 0; 0; 0; 0; 0; 0; 0; 0; 0; 0]%nat 60%N "<HHHHHHHBBBB" 60%N "<HHHHHHHBBBB";
  (* MAVLink_param_est_test_message, lines 7614-7671 *)
  MC 220%N 220%N "PARAM_EST_TEST"
     ["time_boot_ms_imu"; "time_boot_ms_io"; "gyro_x"; "gyro_y"; "gyro_z"; "gyro_dot_x"; "gyro_dot_y"; "gyro_dot_z"; "accel_x"; "accel_y"; "accel_z"; "accel_no_g_x"; "accel_no_g_y"; "accel_no_g_z"; "dvl_x"; "dvl_y"; "dvl_z"; "roll"; "pitch"; "yaw"; "motor1_rpm"; "motor2_rpm"; "motor3_rpm"; "motor4_rpm"; "motor5_rpm"; "motor6_rpm"; "motor7_rpm"]
     ["time_boot_ms_imu"; "time_boot_ms_io"; "gyro_x"; "gyro_y"; "gyro_z"; "gyro_dot_x"; "gyro_dot_y"; "gyro_dot_z"; "accel_x"; "accel_y"; "accel_z"; "accel_no_g_x"; "accel_no_g_y"; "accel_no_g_z"; "dvl_x"; "dvl_y"; "dvl_z"; "roll"; "pitch"; "yaw"; "motor1_rpm"; "motor2_rpm"; "motor3_rpm"; "motor4_rpm"; "motor5_rpm"; "motor6_rpm"; "motor7_rpm"]
     ["uint32_t"; "uint32_t"; "float"; "float"; "float"; "float"; "float"; "float"; "float"; "float"; "float"; "float"; "float"; "float"; "float"; "float"; "float"; "float"; "float"; "float"; "int16_t"; "int16_t"; "int16_t"; "int16_t"; "int16_t"; "int16_t"; "int16_t"]
     "<IIffffffffffffffffffhhhhhhh" [0; 1; 2; 3; 4; 5; 6; 7; 8; 9; 10; 11; 12; 13; 14; 15; 16; 17; 18; 19; 20; 21; 22; 23; 24; 25; 26]%nat [1; 1; 1; 1; 1; 1; 1; 1; 1; 1; 1; 1; 1; 1; 1; 1; 1; 1; 1; 1; 1; 1; 1; 1; 1; 1; 1]%nat [0; 0; 0; 0; 0; 0; 0; 0; 0; 0; 0; 0; 0; 0; 0; 0; 0; 0; 0; 0; 0; 0; 0; 0; 0; 0; 0]%nat 199%N "<IIffffffffffffffffffhhhhhhh" 199%N "<IIffffffffffffffffffhhhhhhh";
  (* MAVLink_motor_cmd_message, lines 7673-7705 *)
  MC 221%N 221%N "MOTOR_CMD"
     ["mode"; "speed"]
     ["speed"; "mode"]
     ["uint8_t"; "int16_t"]
     "<10hB" [1; 0]%nat [10; 1]%nat [10; 0]%nat 226%N "<10hB" 226%N "<10hB";
  (* MAVLink_bathymetry_message, lines 7707-7743 *)
  MC 222%N 222%N "BATHYMETRY"
     ["time_usec"; "depth"; "altitude"; "distance"; "range_from_body"; "seabed_phi"; "seabed_theta"]
     ["time_usec"; "depth"; "altitude"; "distance"; "range_from_body"; "seabed_phi"; "seabed_theta"]
     ["uint64_t"; "float"; "float"; "float"; "float"; "float"; "float"]
     "<Qffffff" [0; 1; 2; 3; 4; 5; 6]%nat [1; 1; 1; 1; 1; 1; 1]%nat [0; 0; 0; 0; 0; 0; 0]%nat 216%N "<Qffffff" 216%N "<Qffffff";
  (* MAVLink_power_consumption_motors_message, lines 7745-7783 *)
  MC 223%N 223%N "POWER_CONSUMPTION_MOTORS"
     ["time_boot_ms"; "current_ml"; "current_mr"; "current_p"; "current_yb"; "current_yf"; "current_wl"; "current_wr"; "battery_voltage"]
     ["time_boot_ms"; "current_ml"; "current_mr"; "current_p"; "current_yb"; "current_yf"; "current_wl"; "current_wr"; "battery_voltage"]
     ["uint32_t"; "float"; "float"; "float"; "float"; "float"; "float"; "float"; "float"]
     "<Iffffffff" [0; 1; 2; 3; 4; 5; 6; 7; 8]%nat [1; 1; 1; 1; 1; 1; 1; 1; 1]%nat [0; 0; 0; 0; 0; 0; 0; 0; 0]%nat 143%N "<Iffffffff" 143%N "<Iffffffff";
  (* MAVLink_power_consumption_2_message, lines 7785-7823 *)
  MC 224%N 224%N "POWER_CONSUMPTION_2"
     ["time_boot_ms"; "current_1"; "voltage_1"; "current_2"; "voltage_2"; "current_3"; "voltage_3"; "current_4"; "voltage_4"]
     ["time_boot_ms"; "current_1"; "voltage_1"; "current_2"; "voltage_2"; "current_3"; "voltage_3"; "current_4"; "voltage_4"]
     ["uint32_t"; "float"; "float"; "float"; "float"; "float"; "float"; "float"; "float"]
     "<Iffffffff" [0; 1; 2; 3; 4; 5; 6; 7; 8]%nat [1; 1; 1; 1; 1; 1; 1; 1; 1]%nat [0; 0; 0; 0; 0; 0; 0; 0; 0]%nat 48%N "<Iffffffff" 48%N "<Iffffffff";
  (* MAVLink_system_status_2_message, lines 7825-7860 *)
  MC 225%N 225%N "SYSTEM_STATUS_2"
     ["time_boot_ms"; "hc_mode"; "hc_system_status"; "hc_err_id"; "debug1"; "debug2"]
     ["time_boot_ms"; "hc_err_id"; "debug1"; "debug2"; "hc_mode"; "hc_system_status"]
     ["uint32_t"; "uint16_t"; "uint16_t"; "uint32_t"; "float"; "float"]
     "<IIffHH" [0; 4; 5; 1; 2; 3]%nat [1; 1; 1; 1; 1; 1]%nat [0; 0; 0; 0; 0; 0]%nat 101%N "<IIffHH" 101%N "<IIffHH";
  (* MAVLink_gps_timing_message, lines 7862-7899 *)
  MC 226%N 226%N "GPS_TIMING"
     ["time_boot_ms"; "tow_ms"; "tow_ns"; "accuracy"; "local_time_s"; "gps_fix"; "rtc_month"; "rtc_day"]
     ["time_boot_ms"; "tow_ms"; "tow_ns"; "accuracy"; "local_time_s"; "gps_fix"; "rtc_month"; "rtc_day"]
     ["uint32_t"; "int32_t"; "int32_t"; "uint32_t"; "float"; "uint8_t"; "uint8_t"; "uint8_t"]
     "<IiiIfBBB" [0; 1; 2; 3; 4; 5; 6; 7]%nat [1; 1; 1; 1; 1; 1; 1; 1]%nat [0; 0; 0; 0; 0; 0; 0; 0]%nat 149%N "<IiiIfBBB" 149%N "<IiiIfBBB";
  (* MAVLink_magnetometer_calibration_message, lines 7901-7933 *)
  MC 227%N 227%N "MAGNETOMETER_CALIBRATION"
     ["time_boot_ms"; "bias"; "scaling_matrix"]
     ["time_boot_ms"; "bias"; "scaling_matrix"]
     ["uint32_t"; "float"; "float"]
     "<I3f9f" [0; 1; 2]%nat [1; 3; 9]%nat [0; 3; 9]%nat 37%N "<I3f9f" 37%N "<I3f9f";
  (* MAVLink_algorithm_status_message, lines 7935-7975 *)
  MC 228%N 228%N "ALGORITHM_STATUS"
     ["time_boot_ms"; "rate"; "nav_type"; "external_heading"; "calibrated"; "reset"; "hc_maneuver"; "hc_maneuver2"; "velocity_inov"; "attitude_cov"; "pos_cov"]
     ["time_boot_ms"; "nav_type"; "velocity_inov"; "attitude_cov"; "pos_cov"; "rate"; "external_heading"; "calibrated"; "reset"; "hc_maneuver"; "hc_maneuver2"]
     ["uint32_t"; "uint16_t"; "uint32_t"; "uint8_t"; "uint8_t"; "uint8_t"; "uint8_t"; "uint8_t"; "float"; "float"; "float"]
     "<IIfffHBBBBB" [0; 5; 1; 6; 7; 8; 9; 10; 2; 3; 4]%nat [1; 1; 1; 1; 1; 1; 1; 1; 1; 1; 1]%nat [0; 0; 0; 0; 0; 0; 0; 0; 0; 0; 0]%nat 8%N "<IIfffHBBBBB" 8%N "<IIfffHBBBBB";
  (* MAVLink_dvl_bt_raw_message, lines 7977-8021 *)
  MC 229%N 229%N "DVL_BT_RAW"
     ["time_boot_ms"; "v1"; "v2"; "v3"; "v_err"; "wm_v1"; "wm_v2"; "wm_v3"; "wm_v4"; "range_1"; "range_2"; "range_3"; "range_4"; "good_beams_precentege"; "ensamble_number"]
     ["time_boot_ms"; "range_1"; "range_2"; "range_3"; "range_4"; "ensamble_number"; "v1"; "v2"; "v3"; "v_err"; "wm_v1"; "wm_v2"; "wm_v3"; "wm_v4"; "good_beams_precentege"]
     ["uint32_t"; "int16_t"; "int16_t"; "int16_t"; "int16_t"; "int16_t"; "int16_t"; "int16_t"; "int16_t"; "uint32_t"; "uint32_t"; "uint32_t"; "uint32_t"; "uint8_t"; "uint32_t"]
     "<IIIIIIhhhhhhhhB" [0; 6; 7; 8; 9; 10; 11; 12; 13; 1; 2; 3; 4; 14; 5]%nat [1; 1; 1; 1; 1; 1; 1; 1; 1; 1; 1; 1; 1; 1; 1]%nat [0; 0; 0; 0; 0; 0; 0; 0; 0; 0; 0; 0; 0; 0; 0]%nat 18%N "<IIIIIIhhhhhhhhB" 18%N "<IIIIIIhhhhhhhhB";
  (* MAVLink_dvl_bt_scaled_message, lines 8023-8058 *)
  MC 230%N 230%N "DVL_BT_SCALED"
     ["time_boot_ms"; "v1"; "v2"; "v3"; "altitude"; "distance"]
     ["time_boot_ms"; "v1"; "v2"; "v3"; "altitude"; "distance"]
     ["uint32_t"; "float"; "float"; "float"; "float"; "float"]
     "<Ifffff" [0; 1; 2; 3; 4; 5]%nat [1; 1; 1; 1; 1; 1]%nat [0; 0; 0; 0; 0; 0]%nat 72%N "<Ifffff" 72%N "<Ifffff";
  (* MAVLink_dvl_bt_highres_message, lines 8060-8114 *)
  MC 231%N 231%N "DVL_BT_HIGHRES"
     ["time_boot_ms"; "V1"; "V2"; "V3"; "V4"; "Bt_Dmg_1"; "Bt_Dmg_2"; "Bt_Dmg_3"; "Bt_Dmg_4"; "Ref_Frame"; "Wm_V1"; "Wm_V2"; "Wm_V3"; "Wm_V4"; "Svs"; "Slant_range"; "Axes_delta_range"; "Vertical_range"; "Percent_good_4bm"; "Percent_good_12bm"; "Percent_good_34bm"; "Bm_1_raw_range"; "Bm_2_raw_range"; "Bm_3_raw_range"; "Bm_4_raw_range"]
     ["time_boot_ms"; "V1"; "V2"; "V3"; "V4"; "Bt_Dmg_1"; "Bt_Dmg_2"; "Bt_Dmg_3"; "Bt_Dmg_4"; "Wm_V1"; "Wm_V2"; "Wm_V3"; "Wm_V4"; "Svs"; "Slant_range"; "Axes_delta_range"; "Vertical_range"; "Bm_1_raw_range"; "Bm_2_raw_range"; "Bm_3_raw_range"; "Bm_4_raw_range"; "Ref_Frame"; "Percent_good_4bm"; "Percent_good_12bm"; "Percent_good_34bm"]
     ["uint32_t"; "int32_t"; "int32_t"; "int32_t"; "int32_t"; "int32_t"; "int32_t"; "int32_t"; "int32_t"; "uint8_t"; "int32_t"; "int32_t"; "int32_t"; "int32_t"; "uint32_t"; "uint32_t"; "uint32_t"; "uint32_t"; "uint8_t"; "uint8_t"; "uint8_t"; "uint32_t"; "uint32_t"; "uint32_t"; "uint32_t"]
     "<IiiiiiiiiiiiiIIIIIIIIBBBB" [0; 1; 2; 3; 4; 5; 6; 7; 8; 21; 9; 10; 11; 12; 13; 14; 15; 16; 22; 23; 24; 17; 18; 19; 20]%nat [1; 1; 1; 1; 1; 1; 1; 1; 1; 1; 1; 1; 1; 1; 1; 1; 1; 1; 1; 1; 1; 1; 1; 1; 1]%nat [0; 0; 0; 0; 0; 0; 0; 0; 0; 0; 0; 0; 0; 0; 0; 0; 0; 0; 0; 0; 0; 0; 0; 0; 0]%nat 168%N "<IiiiiiiiiiiiiIIIIIIIIBBBB" 168%N "<IiiiiiiiiiiiiIIIIIIIIBBBB";
  (* MAVLink_dvl_wp_raw_message, lines 8116-8164 *)
  MC 232%N 232%N "DVL_WP_RAW"
     ["time_boot_ms"; "Depth_Cell_ID"; "v1"; "v2"; "v3"; "v_err"; "Depth_Correlation_1"; "Depth_Correlation_2"; "Depth_Correlation_3"; "Depth_Correlation_4"; "Depth_Echo_Intensity_1"; "Depth_Echo_Intensity_2"; "Depth_Echo_Intensity_3"; "Depth_Echo_Intensity_4"; "Percent_Good_1"; "Percent_Good_2"; "Percent_Good_3"; "Percent_Good_4"; "status"]
     ["time_boot_ms"; "v1"; "v2"; "v3"; "v_err"; "Depth_Cell_ID"; "Depth_Correlation_1"; "Depth_Correlation_2"; "Depth_Correlation_3"; "Depth_Correlation_4"; "Depth_Echo_Intensity_1"; "Depth_Echo_Intensity_2"; "Depth_Echo_Intensity_3"; "Depth_Echo_Intensity_4"; "Percent_Good_1"; "Percent_Good_2"; "Percent_Good_3"; "Percent_Good_4"; "status"]
     ["uint32_t"; "uint8_t"; "int16_t"; "int16_t"; "int16_t"; "int16_t"; "uint8_t"; "uint8_t"; "uint8_t"; "uint8_t"; "uint8_t"; "uint8_t"; "uint8_t"; "uint8_t"; "uint8_t"; "uint8_t"; "uint8_t"; "uint8_t"; "uint8_t"]
     "<IhhhhBBBBBBBBBBBBBB" [0; 5; 1; 2; 3; 4; 6; 7; 8; 9; 10; 11; 12; 13; 14; 15; 16; 17; 18]%nat [1; 1; 1; 1; 1; 1; 1; 1; 1; 1; 1; 1; 1; 1; 1; 1; 1; 1; 1]%nat [0; 0; 0; 0; 0; 0; 0; 0; 0; 0; 0; 0; 0; 0; 0; 0; 0; 0; 0]%nat 224%N "<IhhhhBBBBBBBBBBBBBB" 224%N "<IhhhhBBBBBBBBBBBBBB";
  (* MAVLink_time_date_info_message, lines 8166-8204 *)
  MC 233%N 233%N "TIME_DATE_INFO"
     ["time_boot_ms"; "year"; "month"; "day"; "hours"; "minutes"; "seconds"; "millisec"]
     ["time_boot_ms"; "year"; "millisec"; "month"; "day"; "hours"; "minutes"; "seconds"]
     ["uint32_t"; "uint16_t"; "uint8_t"; "uint8_t"; "uint8_t"; "uint8_t"; "uint8_t"; "uint16_t"]
     "<IHHBBBBB" [0; 1; 3; 4; 5; 6; 7; 2]%nat [1; 1; 1; 1; 1; 1; 1; 1]%nat [0; 0; 0; 0; 0; 0; 0; 0]%nat 95%N "<IHHBBBBB" 95%N "<IHHBBBBB";
  (* MAVLink_pinger_data_message, lines 8206-8238 *)
  MC 234%N 234%N "PINGER_DATA"
     ["time_boot_ms"; "range"; "azimuth"]
     ["time_boot_ms"; "range"; "azimuth"]
     ["uint32_t"; "float"; "float"]
     "<Iff" [0; 1; 2]%nat [1; 1; 1]%nat [0; 0; 0]%nat 126%N "<Iff" 126%N "<Iff";
  (* MAVLink_hc_acoustic_pos_message, lines 8240-8275 *)
  MC 235%N 235%N "HC_ACOUSTIC_POS"
     ["time_boot_ms"; "range"; "azimuth"; "lat_1"; "lon_1"; "tow_1"]
     ["time_boot_ms"; "range"; "azimuth"; "lat_1"; "lon_1"; "tow_1"]
     ["uint32_t"; "float"; "float"; "int32_t"; "int32_t"; "uint32_t"]
     "<IffiiI" [0; 1; 2; 3; 4; 5]%nat [1; 1; 1; 1; 1; 1]%nat [0; 0; 0; 0; 0; 0]%nat 88%N "<IffiiI" 88%N "<IffiiI";
  (* MAVLink_debug_msg_1_message, lines 8277-8313 *)
  MC 236%N 236%N "DEBUG_MSG_1"
     ["time_boot_ms"; "debug_1_1"; "debug_1_2"; "debug_1_3"; "debug_1_4"; "debug_1_5"; "debug_1_6"]
     ["time_boot_ms"; "debug_1_1"; "debug_1_2"; "debug_1_3"; "debug_1_4"; "debug_1_5"; "debug_1_6"]
     ["uint32_t"; "float"; "float"; "float"; "float"; "float"; "float"]
     "<Iffffff" [0; 1; 2; 3; 4; 5; 6]%nat [1; 1; 1; 1; 1; 1; 1]%nat [0; 0; 0; 0; 0; 0; 0]%nat 94%N "<Iffffff" 94%N "<Iffffff";
  (* MAVLink_hc_acoustic_channel_message, lines 8315-8353 *)
  MC 237%N 237%N "HC_ACOUSTIC_CHANNEL"
     ["time_boot_ms"; "mpd"; "psnr"; "agc"; "spd"; "crc_pass"; "ccerr"; "source"; "destination"]
     ["time_boot_ms"; "mpd"; "psnr"; "agc"; "spd"; "crc_pass"; "ccerr"; "source"; "destination"]
     ["uint32_t"; "float"; "float"; "int32_t"; "float"; "uint8_t"; "uint8_t"; "uint8_t"; "uint8_t"]
     "<IffifBBBB" [0; 1; 2; 3; 4; 5; 6; 7; 8]%nat [1; 1; 1; 1; 1; 1; 1; 1; 1]%nat [0; 0; 0; 0; 0; 0; 0; 0; 0]%nat 210%N "<IffifBBBB" 210%N "<IffifBBBB";
  (* MAVLink_acoustic_transmission_log_message, lines 8355-8389 *)
  MC 238%N 238%N "ACOUSTIC_TRANSMISSION_LOG"
     ["time_boot_ms"; "tow_ms"; "count"; "slot_num"; "data"]
     ["time_boot_ms"; "tow_ms"; "count"; "slot_num"; "data"]
     ["uint32_t"; "int32_t"; "uint8_t"; "uint8_t"; "uint8_t"]
     "<IiBB200B" [0; 1; 2; 3; 4]%nat [1; 1; 1; 1; 200]%nat [0; 0; 0; 0; 200]%nat 143%N "<IiBB200B" 143%N "<IiBB200B"
].
