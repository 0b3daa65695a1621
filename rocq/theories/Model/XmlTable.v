(** The message definitions of the dialects: generated from the XML files by tools/gen_xml.py.
    Left out: descriptions, enumerations, and the attributes of fields other than name and type.
    mavlink_utils/HC_dialect.xml, mavlink_utils/minimal_dialect.xml. *)
From Coq Require Import String List NArith.
Import ListNotations.
Local Open Scope string_scope.

(** <field type="T[n]" name="...">: name, element type, number of elements (0 when the type has no brackets);
    mavlink_utils/HC_dialect.xml, e.g. line 1828. *)
Record xfield := XF { xf_name : string; xf_type : string; xf_array : nat }.

(** <message id="..." name="..."> and its fields in the order of the file; mavlink_utils/HC_dialect.xml, e.g. line 1826. *)
Record xmsg := XM { xm_id : N; xm_name : string; xm_fields : list xfield }.

(** <messages>; mavlink_utils/HC_dialect.xml:1825-3489. *)
Definition hc_xml : list xmsg :=
[
  (* lines 1826-1834 *)
  XM 0%N "HEARTBEAT"
     [XF "type" "uint8_t" 0;
      XF "autopilot" "uint8_t" 0;
      XF "base_mode" "uint8_t" 0;
      XF "custom_mode" "uint32_t" 0;
      XF "system_status" "uint8_t" 0;
      XF "mavlink_version" "uint8_t_mavlink_version" 0];
  (* lines 1835-1850 *)
  XM 1%N "SYS_STATUS"
     [XF "onboard_control_sensors_present" "uint32_t" 0;
      XF "onboard_control_sensors_enabled" "uint32_t" 0;
      XF "onboard_control_sensors_health" "uint32_t" 0;
      XF "load" "uint16_t" 0;
      XF "voltage_battery" "uint16_t" 0;
      XF "current_battery" "int16_t" 0;
      XF "battery_remaining" "int8_t" 0;
      XF "drop_rate_comm" "uint16_t" 0;
      XF "errors_comm" "uint16_t" 0;
      XF "errors_count1" "uint16_t" 0;
      XF "errors_count2" "uint16_t" 0;
      XF "errors_count3" "uint16_t" 0;
      XF "errors_count4" "uint16_t" 0];
  (* lines 1851-1855 *)
  XM 2%N "SYSTEM_TIME"
     [XF "time_unix_usec" "uint64_t" 0;
      XF "time_boot_ms" "uint32_t" 0];
  (* lines 1857-1863 *)
  XM 4%N "PING"
     [XF "time_usec" "uint64_t" 0;
      XF "seq" "uint32_t" 0;
      XF "target_system" "uint8_t" 0;
      XF "target_component" "uint8_t" 0];
  (* lines 1864-1870 *)
  XM 5%N "CHANGE_OPERATOR_CONTROL"
     [XF "target_system" "uint8_t" 0;
      XF "control_request" "uint8_t" 0;
      XF "version" "uint8_t" 0;
      XF "passkey" "char" 25];
  (* lines 1871-1876 *)
  XM 6%N "CHANGE_OPERATOR_CONTROL_ACK"
     [XF "gcs_system_id" "uint8_t" 0;
      XF "control_request" "uint8_t" 0;
      XF "ack" "uint8_t" 0];
  (* lines 1877-1880 *)
  XM 7%N "AUTH_KEY"
     [XF "key" "char" 32];
  (* lines 1881-1886 *)
  XM 11%N "SET_MODE"
     [XF "target_system" "uint8_t" 0;
      XF "base_mode" "uint8_t" 0;
      XF "custom_mode" "uint32_t" 0];
  (* lines 1888-1894 *)
  XM 20%N "PARAM_REQUEST_READ"
     [XF "target_system" "uint8_t" 0;
      XF "target_component" "uint8_t" 0;
      XF "param_id" "char" 16;
      XF "param_index" "int16_t" 0];
  (* lines 1895-1899 *)
  XM 21%N "PARAM_REQUEST_LIST"
     [XF "target_system" "uint8_t" 0;
      XF "target_component" "uint8_t" 0];
  (* lines 1900-1907 *)
  XM 22%N "PARAM_VALUE"
     [XF "param_id" "char" 16;
      XF "param_value" "float" 0;
      XF "param_type" "uint8_t" 0;
      XF "param_count" "uint16_t" 0;
      XF "param_index" "uint16_t" 0];
  (* lines 1908-1915 *)
  XM 23%N "PARAM_SET"
     [XF "target_system" "uint8_t" 0;
      XF "target_component" "uint8_t" 0;
      XF "param_id" "char" 16;
      XF "param_value" "float" 0;
      XF "param_type" "uint8_t" 0];
  (* lines 1916-1929 *)
  XM 24%N "GPS_RAW_INT"
     [XF "time_usec" "uint64_t" 0;
      XF "fix_type" "uint8_t" 0;
      XF "lat" "int32_t" 0;
      XF "lon" "int32_t" 0;
      XF "alt" "int32_t" 0;
      XF "eph" "uint16_t" 0;
      XF "epv" "uint16_t" 0;
      XF "vel" "uint16_t" 0;
      XF "cog" "uint16_t" 0;
      XF "satellites_visible" "uint8_t" 0];
  (* lines 1930-1938 *)
  XM 25%N "GPS_STATUS"
     [XF "satellites_visible" "uint8_t" 0;
      XF "satellite_prn" "uint8_t" 20;
      XF "satellite_used" "uint8_t" 20;
      XF "satellite_elevation" "uint8_t" 20;
      XF "satellite_azimuth" "uint8_t" 20;
      XF "satellite_snr" "uint8_t" 20];
  (* lines 1939-1951 *)
  XM 26%N "SCALED_IMU"
     [XF "time_boot_ms" "uint32_t" 0;
      XF "xacc" "float" 0;
      XF "yacc" "float" 0;
      XF "zacc" "float" 0;
      XF "xgyro" "float" 0;
      XF "ygyro" "float" 0;
      XF "zgyro" "float" 0;
      XF "xmag" "float" 0;
      XF "ymag" "float" 0;
      XF "zmag" "float" 0];
  (* lines 1952-1964 *)
  XM 27%N "RAW_IMU"
     [XF "time_usec" "uint64_t" 0;
      XF "xacc" "int16_t" 0;
      XF "yacc" "int16_t" 0;
      XF "zacc" "int16_t" 0;
      XF "xgyro" "int16_t" 0;
      XF "ygyro" "int16_t" 0;
      XF "zgyro" "int16_t" 0;
      XF "xmag" "int16_t" 0;
      XF "ymag" "int16_t" 0;
      XF "zmag" "int16_t" 0];
  (* lines 1965-1972 *)
  XM 28%N "RAW_PRESSURE"
     [XF "time_usec" "uint64_t" 0;
      XF "press_abs" "int16_t" 0;
      XF "press_diff1" "int16_t" 0;
      XF "press_diff2" "int16_t" 0;
      XF "temperature" "int16_t" 0];
  (* lines 1973-1979 *)
  XM 29%N "SCALED_PRESSURE"
     [XF "time_boot_ms" "uint32_t" 0;
      XF "press_abs" "float" 0;
      XF "press_diff" "float" 0;
      XF "temperature" "float" 0];
  (* lines 1980-1989 *)
  XM 30%N "ATTITUDE"
     [XF "time_boot_ms" "uint32_t" 0;
      XF "roll" "float" 0;
      XF "pitch" "float" 0;
      XF "yaw" "float" 0;
      XF "rollspeed" "float" 0;
      XF "pitchspeed" "float" 0;
      XF "yawspeed" "float" 0];
  (* lines 1990-2000 *)
  XM 31%N "ATTITUDE_QUATERNION"
     [XF "time_boot_ms" "uint32_t" 0;
      XF "q1" "float" 0;
      XF "q2" "float" 0;
      XF "q3" "float" 0;
      XF "q4" "float" 0;
      XF "rollspeed" "float" 0;
      XF "pitchspeed" "float" 0;
      XF "yawspeed" "float" 0];
  (* lines 2001-2010 *)
  XM 32%N "LOCAL_POSITION_NED"
     [XF "time_boot_ms" "uint32_t" 0;
      XF "x" "float" 0;
      XF "y" "float" 0;
      XF "z" "float" 0;
      XF "vx" "float" 0;
      XF "vy" "float" 0;
      XF "vz" "float" 0];
  (* lines 2011-2025 *)
  XM 33%N "GLOBAL_POSITION_INT"
     [XF "time_boot_ms" "uint32_t" 0;
      XF "lat" "int32_t" 0;
      XF "lon" "int32_t" 0;
      XF "alt" "float" 0;
      XF "relative_alt" "float" 0;
      XF "bottom_clearnce" "float" 0;
      XF "depth" "float" 0;
      XF "vx" "float" 0;
      XF "vy" "float" 0;
      XF "vz" "float" 0;
      XF "hdg" "float" 0];
  (* lines 2026-2039 *)
  XM 34%N "RC_CHANNELS_SCALED"
     [XF "time_boot_ms" "uint32_t" 0;
      XF "port" "uint8_t" 0;
      XF "chan1_scaled" "int16_t" 0;
      XF "chan2_scaled" "int16_t" 0;
      XF "chan3_scaled" "int16_t" 0;
      XF "chan4_scaled" "int16_t" 0;
      XF "chan5_scaled" "int16_t" 0;
      XF "chan6_scaled" "int16_t" 0;
      XF "chan7_scaled" "int16_t" 0;
      XF "chan8_scaled" "int16_t" 0;
      XF "rssi" "uint8_t" 0];
  (* lines 2040-2053 *)
  XM 35%N "RC_CHANNELS_RAW"
     [XF "time_boot_ms" "uint32_t" 0;
      XF "port" "uint8_t" 0;
      XF "chan1_raw" "uint16_t" 0;
      XF "chan2_raw" "uint16_t" 0;
      XF "chan3_raw" "uint16_t" 0;
      XF "chan4_raw" "uint16_t" 0;
      XF "chan5_raw" "uint16_t" 0;
      XF "chan6_raw" "uint16_t" 0;
      XF "chan7_raw" "uint16_t" 0;
      XF "chan8_raw" "uint16_t" 0;
      XF "rssi" "uint8_t" 0];
  (* lines 2054-2066 *)
  XM 36%N "SERVO_OUTPUT_RAW"
     [XF "time_usec" "uint32_t" 0;
      XF "port" "uint8_t" 0;
      XF "servo1_raw" "uint16_t" 0;
      XF "servo2_raw" "uint16_t" 0;
      XF "servo3_raw" "uint16_t" 0;
      XF "servo4_raw" "uint16_t" 0;
      XF "servo5_raw" "uint16_t" 0;
      XF "servo6_raw" "uint16_t" 0;
      XF "servo7_raw" "uint16_t" 0;
      XF "servo8_raw" "uint16_t" 0];
  (* lines 2067-2073 *)
  XM 37%N "MISSION_REQUEST_PARTIAL_LIST"
     [XF "target_system" "uint8_t" 0;
      XF "target_component" "uint8_t" 0;
      XF "start_index" "int16_t" 0;
      XF "end_index" "int16_t" 0];
  (* lines 2074-2080 *)
  XM 38%N "MISSION_WRITE_PARTIAL_LIST"
     [XF "target_system" "uint8_t" 0;
      XF "target_component" "uint8_t" 0;
      XF "start_index" "int16_t" 0;
      XF "end_index" "int16_t" 0];
  (* lines 2081-2098 *)
  XM 39%N "MISSION_ITEM"
     [XF "target_system" "uint8_t" 0;
      XF "target_component" "uint8_t" 0;
      XF "seq" "uint16_t" 0;
      XF "frame" "uint8_t" 0;
      XF "command" "uint16_t" 0;
      XF "current" "uint8_t" 0;
      XF "autocontinue" "uint8_t" 0;
      XF "param1" "float" 0;
      XF "param2" "float" 0;
      XF "param3" "float" 0;
      XF "param4" "float" 0;
      XF "x" "float" 0;
      XF "y" "float" 0;
      XF "z" "float" 0];
  (* lines 2099-2104 *)
  XM 40%N "MISSION_REQUEST"
     [XF "target_system" "uint8_t" 0;
      XF "target_component" "uint8_t" 0;
      XF "seq" "uint16_t" 0];
  (* lines 2105-2110 *)
  XM 41%N "MISSION_SET_CURRENT"
     [XF "target_system" "uint8_t" 0;
      XF "target_component" "uint8_t" 0;
      XF "seq" "uint16_t" 0];
  (* lines 2111-2114 *)
  XM 42%N "MISSION_CURRENT"
     [XF "seq" "uint16_t" 0];
  (* lines 2115-2119 *)
  XM 43%N "MISSION_REQUEST_LIST"
     [XF "target_system" "uint8_t" 0;
      XF "target_component" "uint8_t" 0];
  (* lines 2120-2125 *)
  XM 44%N "MISSION_COUNT"
     [XF "target_system" "uint8_t" 0;
      XF "target_component" "uint8_t" 0;
      XF "count" "uint16_t" 0];
  (* lines 2126-2130 *)
  XM 45%N "MISSION_CLEAR_ALL"
     [XF "target_system" "uint8_t" 0;
      XF "target_component" "uint8_t" 0];
  (* lines 2131-2134 *)
  XM 46%N "MISSION_ITEM_REACHED"
     [XF "seq" "uint16_t" 0];
  (* lines 2135-2140 *)
  XM 47%N "MISSION_ACK"
     [XF "target_system" "uint8_t" 0;
      XF "target_component" "uint8_t" 0;
      XF "type" "uint8_t" 0];
  (* lines 2141-2147 *)
  XM 48%N "SET_GPS_GLOBAL_ORIGIN"
     [XF "target_system" "uint8_t" 0;
      XF "latitude" "int32_t" 0;
      XF "longitude" "int32_t" 0;
      XF "altitude" "int32_t" 0];
  (* lines 2148-2153 *)
  XM 49%N "GPS_GLOBAL_ORIGIN"
     [XF "latitude" "int32_t" 0;
      XF "longitude" "int32_t" 0;
      XF "altitude" "int32_t" 0];
  (* lines 2154-2165 *)
  XM 50%N "PARAM_MAP_RC"
     [XF "target_system" "uint8_t" 0;
      XF "target_component" "uint8_t" 0;
      XF "param_id" "char" 16;
      XF "param_index" "int16_t" 0;
      XF "parameter_rc_channel_index" "uint8_t" 0;
      XF "param_value0" "float" 0;
      XF "scale" "float" 0;
      XF "param_value_min" "float" 0;
      XF "param_value_max" "float" 0];
  (* lines 2166-2177 *)
  XM 54%N "SAFETY_SET_ALLOWED_AREA"
     [XF "target_system" "uint8_t" 0;
      XF "target_component" "uint8_t" 0;
      XF "frame" "uint8_t" 0;
      XF "p1x" "float" 0;
      XF "p1y" "float" 0;
      XF "p1z" "float" 0;
      XF "p2x" "float" 0;
      XF "p2y" "float" 0;
      XF "p2z" "float" 0];
  (* lines 2178-2187 *)
  XM 55%N "SAFETY_ALLOWED_AREA"
     [XF "frame" "uint8_t" 0;
      XF "p1x" "float" 0;
      XF "p1y" "float" 0;
      XF "p1z" "float" 0;
      XF "p2x" "float" 0;
      XF "p2y" "float" 0;
      XF "p2z" "float" 0];
  (* lines 2188-2196 *)
  XM 61%N "ATTITUDE_QUATERNION_COV"
     [XF "time_boot_ms" "uint32_t" 0;
      XF "q" "float" 4;
      XF "rollspeed" "float" 0;
      XF "pitchspeed" "float" 0;
      XF "yawspeed" "float" 0;
      XF "covariance" "float" 9];
  (* lines 2197-2207 *)
  XM 62%N "NAV_CONTROLLER_OUTPUT"
     [XF "nav_roll" "float" 0;
      XF "nav_pitch" "float" 0;
      XF "nav_bearing" "int16_t" 0;
      XF "target_bearing" "int16_t" 0;
      XF "wp_dist" "uint16_t" 0;
      XF "alt_error" "float" 0;
      XF "aspd_error" "float" 0;
      XF "xtrack_error" "float" 0];
  (* lines 2208-2221 *)
  XM 63%N "GLOBAL_POSITION_INT_COV"
     [XF "time_boot_ms" "uint32_t" 0;
      XF "time_utc" "uint64_t" 0;
      XF "estimator_type" "uint8_t" 0;
      XF "lat" "int32_t" 0;
      XF "lon" "int32_t" 0;
      XF "alt" "int32_t" 0;
      XF "relative_alt" "int32_t" 0;
      XF "vx" "float" 0;
      XF "vy" "float" 0;
      XF "vz" "float" 0;
      XF "covariance" "float" 36];
  (* lines 2222-2237 *)
  XM 64%N "LOCAL_POSITION_NED_COV"
     [XF "time_boot_ms" "uint32_t" 0;
      XF "time_utc" "uint64_t" 0;
      XF "estimator_type" "uint8_t" 0;
      XF "x" "float" 0;
      XF "y" "float" 0;
      XF "z" "float" 0;
      XF "vx" "float" 0;
      XF "vy" "float" 0;
      XF "vz" "float" 0;
      XF "ax" "float" 0;
      XF "ay" "float" 0;
      XF "az" "float" 0;
      XF "covariance" "float" 45];
  (* lines 2238-2261 *)
  XM 65%N "RC_CHANNELS"
     [XF "time_boot_ms" "uint32_t" 0;
      XF "chancount" "uint8_t" 0;
      XF "chan1_raw" "uint16_t" 0;
      XF "chan2_raw" "uint16_t" 0;
      XF "chan3_raw" "uint16_t" 0;
      XF "chan4_raw" "uint16_t" 0;
      XF "chan5_raw" "uint16_t" 0;
      XF "chan6_raw" "uint16_t" 0;
      XF "chan7_raw" "uint16_t" 0;
      XF "chan8_raw" "uint16_t" 0;
      XF "chan9_raw" "uint16_t" 0;
      XF "chan10_raw" "uint16_t" 0;
      XF "chan11_raw" "uint16_t" 0;
      XF "chan12_raw" "uint16_t" 0;
      XF "chan13_raw" "uint16_t" 0;
      XF "chan14_raw" "uint16_t" 0;
      XF "chan15_raw" "uint16_t" 0;
      XF "chan16_raw" "uint16_t" 0;
      XF "chan17_raw" "uint16_t" 0;
      XF "chan18_raw" "uint16_t" 0;
      XF "rssi" "uint8_t" 0];
  (* lines 2262-2269 *)
  XM 66%N "REQUEST_DATA_STREAM"
     [XF "target_system" "uint8_t" 0;
      XF "target_component" "uint8_t" 0;
      XF "req_stream_id" "uint8_t" 0;
      XF "req_message_rate" "uint16_t" 0;
      XF "start_stop" "uint8_t" 0];
  (* lines 2270-2275 *)
  XM 67%N "DATA_STREAM"
     [XF "stream_id" "uint8_t" 0;
      XF "message_rate" "uint16_t" 0;
      XF "on_off" "uint8_t" 0];
  (* lines 2276-2284 *)
  XM 69%N "MANUAL_CONTROL"
     [XF "target" "uint8_t" 0;
      XF "x" "int16_t" 0;
      XF "y" "int16_t" 0;
      XF "z" "int16_t" 0;
      XF "r" "int16_t" 0;
      XF "buttons" "uint16_t" 0];
  (* lines 2285-2297 *)
  XM 70%N "RC_CHANNELS_OVERRIDE"
     [XF "target_system" "uint8_t" 0;
      XF "target_component" "uint8_t" 0;
      XF "chan1_raw" "uint16_t" 0;
      XF "chan2_raw" "uint16_t" 0;
      XF "chan3_raw" "uint16_t" 0;
      XF "chan4_raw" "uint16_t" 0;
      XF "chan5_raw" "uint16_t" 0;
      XF "chan6_raw" "uint16_t" 0;
      XF "chan7_raw" "uint16_t" 0;
      XF "chan8_raw" "uint16_t" 0];
  (* lines 2298-2315 *)
  XM 73%N "MISSION_ITEM_INT"
     [XF "target_system" "uint8_t" 0;
      XF "target_component" "uint8_t" 0;
      XF "seq" "uint16_t" 0;
      XF "frame" "uint8_t" 0;
      XF "command" "uint16_t" 0;
      XF "current" "uint8_t" 0;
      XF "autocontinue" "uint8_t" 0;
      XF "param1" "float" 0;
      XF "param2" "float" 0;
      XF "param3" "float" 0;
      XF "param4" "float" 0;
      XF "x" "int32_t" 0;
      XF "y" "int32_t" 0;
      XF "z" "float" 0];
  (* lines 2316-2324 *)
  XM 74%N "VFR_HUD"
     [XF "airspeed" "float" 0;
      XF "groundspeed" "float" 0;
      XF "heading" "int16_t" 0;
      XF "throttle" "uint16_t" 0;
      XF "alt" "float" 0;
      XF "climb" "float" 0];
  (* lines 2325-2340 *)
  XM 75%N "COMMAND_INT"
     [XF "target_system" "uint8_t" 0;
      XF "target_component" "uint8_t" 0;
      XF "frame" "uint8_t" 0;
      XF "command" "uint16_t" 0;
      XF "current" "uint8_t" 0;
      XF "autocontinue" "uint8_t" 0;
      XF "param1" "float" 0;
      XF "param2" "float" 0;
      XF "param3" "float" 0;
      XF "param4" "float" 0;
      XF "x" "int32_t" 0;
      XF "y" "int32_t" 0;
      XF "z" "float" 0];
  (* lines 2341-2354 *)
  XM 76%N "COMMAND_LONG"
     [XF "target_system" "uint8_t" 0;
      XF "target_component" "uint8_t" 0;
      XF "command" "uint16_t" 0;
      XF "confirmation" "uint8_t" 0;
      XF "param1" "float" 0;
      XF "param2" "float" 0;
      XF "param3" "float" 0;
      XF "param4" "float" 0;
      XF "param5" "float" 0;
      XF "param6" "float" 0;
      XF "param7" "float" 0];
  (* lines 2355-2359 *)
  XM 77%N "COMMAND_ACK"
     [XF "command" "uint16_t" 0;
      XF "result" "uint8_t" 0];
  (* lines 2360-2369 *)
  XM 81%N "MANUAL_SETPOINT"
     [XF "time_boot_ms" "uint32_t" 0;
      XF "roll" "float" 0;
      XF "pitch" "float" 0;
      XF "yaw" "float" 0;
      XF "thrust" "float" 0;
      XF "mode_switch" "uint8_t" 0;
      XF "manual_override_switch" "uint8_t" 0];
  (* lines 2370-2381 *)
  XM 82%N "SET_ATTITUDE_TARGET"
     [XF "time_boot_ms" "uint32_t" 0;
      XF "target_system" "uint8_t" 0;
      XF "target_component" "uint8_t" 0;
      XF "type_mask" "uint8_t" 0;
      XF "q" "float" 4;
      XF "body_roll_rate" "float" 0;
      XF "body_pitch_rate" "float" 0;
      XF "body_yaw_rate" "float" 0;
      XF "thrust" "float" 0];
  (* lines 2382-2391 *)
  XM 83%N "ATTITUDE_TARGET"
     [XF "time_boot_ms" "uint32_t" 0;
      XF "type_mask" "uint8_t" 0;
      XF "q" "float" 4;
      XF "body_roll_rate" "float" 0;
      XF "body_pitch_rate" "float" 0;
      XF "body_yaw_rate" "float" 0;
      XF "thrust" "float" 0];
  (* lines 2392-2410 *)
  XM 84%N "SET_POSITION_TARGET_LOCAL_NED"
     [XF "time_boot_ms" "uint32_t" 0;
      XF "target_system" "uint8_t" 0;
      XF "target_component" "uint8_t" 0;
      XF "coordinate_frame" "uint8_t" 0;
      XF "type_mask" "uint16_t" 0;
      XF "x" "float" 0;
      XF "y" "float" 0;
      XF "z" "float" 0;
      XF "vx" "float" 0;
      XF "vy" "float" 0;
      XF "vz" "float" 0;
      XF "afx" "float" 0;
      XF "afy" "float" 0;
      XF "afz" "float" 0;
      XF "yaw" "float" 0;
      XF "yaw_rate" "float" 0];
  (* lines 2411-2427 *)
  XM 85%N "POSITION_TARGET_LOCAL_NED"
     [XF "time_boot_ms" "uint32_t" 0;
      XF "coordinate_frame" "uint8_t" 0;
      XF "type_mask" "uint16_t" 0;
      XF "x" "float" 0;
      XF "y" "float" 0;
      XF "z" "float" 0;
      XF "vx" "float" 0;
      XF "vy" "float" 0;
      XF "vz" "float" 0;
      XF "afx" "float" 0;
      XF "afy" "float" 0;
      XF "afz" "float" 0;
      XF "yaw" "float" 0;
      XF "yaw_rate" "float" 0];
  (* lines 2428-2446 *)
  XM 86%N "SET_POSITION_TARGET_GLOBAL_INT"
     [XF "time_boot_ms" "uint32_t" 0;
      XF "target_system" "uint8_t" 0;
      XF "target_component" "uint8_t" 0;
      XF "coordinate_frame" "uint8_t" 0;
      XF "type_mask" "uint16_t" 0;
      XF "lat_int" "int32_t" 0;
      XF "lon_int" "int32_t" 0;
      XF "alt" "float" 0;
      XF "vx" "float" 0;
      XF "vy" "float" 0;
      XF "vz" "float" 0;
      XF "afx" "float" 0;
      XF "afy" "float" 0;
      XF "afz" "float" 0;
      XF "yaw" "float" 0;
      XF "yaw_rate" "float" 0];
  (* lines 2447-2463 *)
  XM 87%N "POSITION_TARGET_GLOBAL_INT"
     [XF "time_boot_ms" "uint32_t" 0;
      XF "coordinate_frame" "uint8_t" 0;
      XF "type_mask" "uint16_t" 0;
      XF "lat_int" "int32_t" 0;
      XF "lon_int" "int32_t" 0;
      XF "alt" "float" 0;
      XF "vx" "float" 0;
      XF "vy" "float" 0;
      XF "vz" "float" 0;
      XF "afx" "float" 0;
      XF "afy" "float" 0;
      XF "afz" "float" 0;
      XF "yaw" "float" 0;
      XF "yaw_rate" "float" 0];
  (* lines 2464-2473 *)
  XM 89%N "LOCAL_POSITION_NED_SYSTEM_GLOBAL_OFFSET"
     [XF "time_boot_ms" "uint32_t" 0;
      XF "x" "float" 0;
      XF "y" "float" 0;
      XF "z" "float" 0;
      XF "roll" "float" 0;
      XF "pitch" "float" 0;
      XF "yaw" "float" 0];
  (* lines 2474-2492 *)
  XM 90%N "HIL_STATE"
     [XF "time_usec" "uint64_t" 0;
      XF "roll" "float" 0;
      XF "pitch" "float" 0;
      XF "yaw" "float" 0;
      XF "rollspeed" "float" 0;
      XF "pitchspeed" "float" 0;
      XF "yawspeed" "float" 0;
      XF "lat" "int32_t" 0;
      XF "lon" "int32_t" 0;
      XF "alt" "int32_t" 0;
      XF "vx" "int16_t" 0;
      XF "vy" "int16_t" 0;
      XF "vz" "int16_t" 0;
      XF "xacc" "int16_t" 0;
      XF "yacc" "int16_t" 0;
      XF "zacc" "int16_t" 0];
  (* lines 2493-2506 *)
  XM 91%N "HIL_CONTROLS"
     [XF "time_usec" "uint64_t" 0;
      XF "roll_ailerons" "float" 0;
      XF "pitch_elevator" "float" 0;
      XF "yaw_rudder" "float" 0;
      XF "throttle" "float" 0;
      XF "aux1" "float" 0;
      XF "aux2" "float" 0;
      XF "aux3" "float" 0;
      XF "aux4" "float" 0;
      XF "mode" "uint8_t" 0;
      XF "nav_mode" "uint8_t" 0];
  (* lines 2507-2523 *)
  XM 92%N "HIL_RC_INPUTS_RAW"
     [XF "time_usec" "uint64_t" 0;
      XF "chan1_raw" "uint16_t" 0;
      XF "chan2_raw" "uint16_t" 0;
      XF "chan3_raw" "uint16_t" 0;
      XF "chan4_raw" "uint16_t" 0;
      XF "chan5_raw" "uint16_t" 0;
      XF "chan6_raw" "uint16_t" 0;
      XF "chan7_raw" "uint16_t" 0;
      XF "chan8_raw" "uint16_t" 0;
      XF "chan9_raw" "uint16_t" 0;
      XF "chan10_raw" "uint16_t" 0;
      XF "chan11_raw" "uint16_t" 0;
      XF "chan12_raw" "uint16_t" 0;
      XF "rssi" "uint8_t" 0];
  (* lines 2524-2534 *)
  XM 100%N "OPTICAL_FLOW"
     [XF "time_usec" "uint64_t" 0;
      XF "sensor_id" "uint8_t" 0;
      XF "flow_x" "int16_t" 0;
      XF "flow_y" "int16_t" 0;
      XF "flow_comp_m_x" "float" 0;
      XF "flow_comp_m_y" "float" 0;
      XF "quality" "uint8_t" 0;
      XF "ground_distance" "float" 0];
  (* lines 2535-2544 *)
  XM 101%N "GLOBAL_VISION_POSITION_ESTIMATE"
     [XF "usec" "uint64_t" 0;
      XF "x" "float" 0;
      XF "y" "float" 0;
      XF "z" "float" 0;
      XF "roll" "float" 0;
      XF "pitch" "float" 0;
      XF "yaw" "float" 0];
  (* lines 2545-2554 *)
  XM 102%N "VISION_POSITION_ESTIMATE"
     [XF "usec" "uint64_t" 0;
      XF "x" "float" 0;
      XF "y" "float" 0;
      XF "z" "float" 0;
      XF "roll" "float" 0;
      XF "pitch" "float" 0;
      XF "yaw" "float" 0];
  (* lines 2555-2561 *)
  XM 103%N "VISION_SPEED_ESTIMATE"
     [XF "usec" "uint64_t" 0;
      XF "x" "float" 0;
      XF "y" "float" 0;
      XF "z" "float" 0];
  (* lines 2562-2571 *)
  XM 104%N "VICON_POSITION_ESTIMATE"
     [XF "usec" "uint64_t" 0;
      XF "x" "float" 0;
      XF "y" "float" 0;
      XF "z" "float" 0;
      XF "roll" "float" 0;
      XF "pitch" "float" 0;
      XF "yaw" "float" 0];
  (* lines 2572-2589 *)
  XM 105%N "HIGHRES_IMU"
     [XF "time_usec" "uint64_t" 0;
      XF "xacc" "float" 0;
      XF "yacc" "float" 0;
      XF "zacc" "float" 0;
      XF "xgyro" "float" 0;
      XF "ygyro" "float" 0;
      XF "zgyro" "float" 0;
      XF "xmag" "float" 0;
      XF "ymag" "float" 0;
      XF "zmag" "float" 0;
      XF "abs_pressure" "float" 0;
      XF "diff_pressure" "float" 0;
      XF "pressure_alt" "float" 0;
      XF "temperature" "float" 0;
      XF "fields_updated" "uint16_t" 0];
  (* lines 2590-2604 *)
  XM 106%N "OPTICAL_FLOW_RAD"
     [XF "time_usec" "uint64_t" 0;
      XF "sensor_id" "uint8_t" 0;
      XF "integration_time_us" "uint32_t" 0;
      XF "integrated_x" "float" 0;
      XF "integrated_y" "float" 0;
      XF "integrated_xgyro" "float" 0;
      XF "integrated_ygyro" "float" 0;
      XF "integrated_zgyro" "float" 0;
      XF "temperature" "int16_t" 0;
      XF "quality" "uint8_t" 0;
      XF "time_delta_distance_us" "uint32_t" 0;
      XF "distance" "float" 0];
  (* lines 2606-2622 *)
  XM 107%N "HIL_SENSOR"
     [XF "time_usec" "uint64_t" 0;
      XF "xacc" "float" 0;
      XF "yacc" "float" 0;
      XF "zacc" "float" 0;
      XF "xgyro" "float" 0;
      XF "ygyro" "float" 0;
      XF "zgyro" "float" 0;
      XF "xmag" "float" 0;
      XF "ymag" "float" 0;
      XF "zmag" "float" 0;
      XF "abs_pressure" "float" 0;
      XF "diff_pressure" "float" 0;
      XF "pressure_alt" "float" 0;
      XF "temperature" "float" 0;
      XF "fields_updated" "uint32_t" 0];
  (* lines 2624-2647 *)
  XM 108%N "SIM_STATE"
     [XF "q1" "float" 0;
      XF "q2" "float" 0;
      XF "q3" "float" 0;
      XF "q4" "float" 0;
      XF "roll" "float" 0;
      XF "pitch" "float" 0;
      XF "yaw" "float" 0;
      XF "xacc" "float" 0;
      XF "yacc" "float" 0;
      XF "zacc" "float" 0;
      XF "xgyro" "float" 0;
      XF "ygyro" "float" 0;
      XF "zgyro" "float" 0;
      XF "lat" "float" 0;
      XF "lon" "float" 0;
      XF "alt" "float" 0;
      XF "std_dev_horz" "float" 0;
      XF "std_dev_vert" "float" 0;
      XF "vn" "float" 0;
      XF "ve" "float" 0;
      XF "vd" "float" 0];
  (* lines 2649-2658 *)
  XM 109%N "RADIO_STATUS"
     [XF "rssi" "uint8_t" 0;
      XF "remrssi" "uint8_t" 0;
      XF "txbuf" "uint8_t" 0;
      XF "noise" "uint8_t" 0;
      XF "remnoise" "uint8_t" 0;
      XF "rxerrors" "uint16_t" 0;
      XF "fixed" "uint16_t" 0];
  (* lines 2659-2665 *)
  XM 110%N "FILE_TRANSFER_PROTOCOL"
     [XF "target_network" "uint8_t" 0;
      XF "target_system" "uint8_t" 0;
      XF "target_component" "uint8_t" 0;
      XF "payload" "uint8_t" 251];
  (* lines 2666-2670 *)
  XM 111%N "TIMESYNC"
     [XF "tc1" "int64_t" 0;
      XF "ts1" "int64_t" 0];
  (* lines 2671-2675 *)
  XM 112%N "CAMERA_TRIGGER"
     [XF "time_usec" "uint64_t" 0;
      XF "seq" "uint32_t" 0];
  (* lines 2676-2692 *)
  XM 113%N "HIL_GPS"
     [XF "time_usec" "uint64_t" 0;
      XF "fix_type" "uint8_t" 0;
      XF "lat" "int32_t" 0;
      XF "lon" "int32_t" 0;
      XF "alt" "int32_t" 0;
      XF "eph" "uint16_t" 0;
      XF "epv" "uint16_t" 0;
      XF "vel" "uint16_t" 0;
      XF "vn" "int16_t" 0;
      XF "ve" "int16_t" 0;
      XF "vd" "int16_t" 0;
      XF "cog" "uint16_t" 0;
      XF "satellites_visible" "uint8_t" 0];
  (* lines 2693-2707 *)
  XM 114%N "HIL_OPTICAL_FLOW"
     [XF "time_usec" "uint64_t" 0;
      XF "sensor_id" "uint8_t" 0;
      XF "integration_time_us" "uint32_t" 0;
      XF "integrated_x" "float" 0;
      XF "integrated_y" "float" 0;
      XF "integrated_xgyro" "float" 0;
      XF "integrated_ygyro" "float" 0;
      XF "integrated_zgyro" "float" 0;
      XF "temperature" "int16_t" 0;
      XF "quality" "uint8_t" 0;
      XF "time_delta_distance_us" "uint32_t" 0;
      XF "distance" "float" 0];
  (* lines 2708-2726 *)
  XM 115%N "HIL_STATE_QUATERNION"
     [XF "time_usec" "uint64_t" 0;
      XF "attitude_quaternion" "float" 4;
      XF "rollspeed" "float" 0;
      XF "pitchspeed" "float" 0;
      XF "yawspeed" "float" 0;
      XF "lat" "int32_t" 0;
      XF "lon" "int32_t" 0;
      XF "alt" "int32_t" 0;
      XF "vx" "int16_t" 0;
      XF "vy" "int16_t" 0;
      XF "vz" "int16_t" 0;
      XF "ind_airspeed" "uint16_t" 0;
      XF "true_airspeed" "uint16_t" 0;
      XF "xacc" "int16_t" 0;
      XF "yacc" "int16_t" 0;
      XF "zacc" "int16_t" 0];
  (* lines 2727-2739 *)
  XM 116%N "SCALED_IMU2"
     [XF "time_boot_ms" "uint32_t" 0;
      XF "xacc" "float" 0;
      XF "yacc" "float" 0;
      XF "zacc" "float" 0;
      XF "xgyro" "float" 0;
      XF "ygyro" "float" 0;
      XF "zgyro" "float" 0;
      XF "xmag" "float" 0;
      XF "ymag" "float" 0;
      XF "zmag" "float" 0];
  (* lines 2740-2746 *)
  XM 117%N "LOG_REQUEST_LIST"
     [XF "target_system" "uint8_t" 0;
      XF "target_component" "uint8_t" 0;
      XF "start" "uint16_t" 0;
      XF "end" "uint16_t" 0];
  (* lines 2747-2754 *)
  XM 118%N "LOG_ENTRY"
     [XF "id" "uint16_t" 0;
      XF "num_logs" "uint16_t" 0;
      XF "last_log_num" "uint16_t" 0;
      XF "time_utc" "uint32_t" 0;
      XF "size" "uint32_t" 0];
  (* lines 2755-2762 *)
  XM 119%N "LOG_REQUEST_DATA"
     [XF "target_system" "uint8_t" 0;
      XF "target_component" "uint8_t" 0;
      XF "id" "uint16_t" 0;
      XF "ofs" "uint32_t" 0;
      XF "count" "uint32_t" 0];
  (* lines 2763-2769 *)
  XM 120%N "LOG_DATA"
     [XF "id" "uint16_t" 0;
      XF "ofs" "uint32_t" 0;
      XF "count" "uint8_t" 0;
      XF "data" "uint8_t" 90];
  (* lines 2770-2774 *)
  XM 121%N "LOG_ERASE"
     [XF "target_system" "uint8_t" 0;
      XF "target_component" "uint8_t" 0];
  (* lines 2775-2779 *)
  XM 122%N "LOG_REQUEST_END"
     [XF "target_system" "uint8_t" 0;
      XF "target_component" "uint8_t" 0];
  (* lines 2780-2786 *)
  XM 123%N "GPS_INJECT_DATA"
     [XF "target_system" "uint8_t" 0;
      XF "target_component" "uint8_t" 0;
      XF "len" "uint8_t" 0;
      XF "data" "uint8_t" 110];
  (* lines 2787-2801 *)
  XM 124%N "GPS2_RAW"
     [XF "time_usec" "uint64_t" 0;
      XF "fix_type" "uint8_t" 0;
      XF "lat" "int32_t" 0;
      XF "lon" "int32_t" 0;
      XF "alt" "int32_t" 0;
      XF "eph" "uint16_t" 0;
      XF "epv" "uint16_t" 0;
      XF "vel" "uint16_t" 0;
      XF "cog" "uint16_t" 0;
      XF "satellites_visible" "uint8_t" 0;
      XF "dgps_numch" "uint8_t" 0;
      XF "dgps_age" "uint32_t" 0];
  (* lines 2802-2807 *)
  XM 125%N "POWER_STATUS"
     [XF "Vcc" "uint16_t" 0;
      XF "Vservo" "uint16_t" 0;
      XF "flags" "uint16_t" 0];
  (* lines 2808-2816 *)
  XM 126%N "SERIAL_CONTROL"
     [XF "device" "uint8_t" 0;
      XF "flags" "uint8_t" 0;
      XF "timeout" "uint16_t" 0;
      XF "baudrate" "uint32_t" 0;
      XF "count" "uint8_t" 0;
      XF "data" "uint8_t" 80];
  (* lines 2817-2832 *)
  XM 127%N "GPS_RTK"
     [XF "time_last_baseline_ms" "uint32_t" 0;
      XF "rtk_receiver_id" "uint8_t" 0;
      XF "wn" "uint16_t" 0;
      XF "tow" "uint32_t" 0;
      XF "rtk_health" "uint8_t" 0;
      XF "rtk_rate" "uint8_t" 0;
      XF "nsats" "uint8_t" 0;
      XF "baseline_coords_type" "uint8_t" 0;
      XF "baseline_a_mm" "int32_t" 0;
      XF "baseline_b_mm" "int32_t" 0;
      XF "baseline_c_mm" "int32_t" 0;
      XF "accuracy" "uint32_t" 0;
      XF "iar_num_hypotheses" "int32_t" 0];
  (* lines 2833-2848 *)
  XM 128%N "GPS2_RTK"
     [XF "time_last_baseline_ms" "uint32_t" 0;
      XF "rtk_receiver_id" "uint8_t" 0;
      XF "wn" "uint16_t" 0;
      XF "tow" "uint32_t" 0;
      XF "rtk_health" "uint8_t" 0;
      XF "rtk_rate" "uint8_t" 0;
      XF "nsats" "uint8_t" 0;
      XF "baseline_coords_type" "uint8_t" 0;
      XF "baseline_a_mm" "int32_t" 0;
      XF "baseline_b_mm" "int32_t" 0;
      XF "baseline_c_mm" "int32_t" 0;
      XF "accuracy" "uint32_t" 0;
      XF "iar_num_hypotheses" "int32_t" 0];
  (* lines 2849-2861 *)
  XM 129%N "SCALED_IMU3"
     [XF "time_boot_ms" "uint32_t" 0;
      XF "xacc" "float" 0;
      XF "yacc" "float" 0;
      XF "zacc" "float" 0;
      XF "xgyro" "float" 0;
      XF "ygyro" "float" 0;
      XF "zgyro" "float" 0;
      XF "xmag" "float" 0;
      XF "ymag" "float" 0;
      XF "zmag" "float" 0];
  (* lines 2862-2871 *)
  XM 130%N "DATA_TRANSMISSION_HANDSHAKE"
     [XF "type" "uint8_t" 0;
      XF "size" "uint32_t" 0;
      XF "width" "uint16_t" 0;
      XF "height" "uint16_t" 0;
      XF "packets" "uint16_t" 0;
      XF "payload" "uint8_t" 0;
      XF "jpg_quality" "uint8_t" 0];
  (* lines 2872-2876 *)
  XM 131%N "ENCAPSULATED_DATA"
     [XF "seqnr" "uint16_t" 0;
      XF "data" "uint8_t" 253];
  (* lines 2877-2887 *)
  XM 132%N "DISTANCE_SENSOR"
     [XF "time_boot_ms" "uint32_t" 0;
      XF "min_distance" "uint16_t" 0;
      XF "max_distance" "uint16_t" 0;
      XF "current_distance" "uint16_t" 0;
      XF "type" "uint8_t" 0;
      XF "id" "uint8_t" 0;
      XF "orientation" "uint8_t" 0;
      XF "covariance" "uint8_t" 0];
  (* lines 2888-2894 *)
  XM 133%N "TERRAIN_REQUEST"
     [XF "lat" "int32_t" 0;
      XF "lon" "int32_t" 0;
      XF "grid_spacing" "uint16_t" 0;
      XF "mask" "uint64_t" 0];
  (* lines 2895-2902 *)
  XM 134%N "TERRAIN_DATA"
     [XF "lat" "int32_t" 0;
      XF "lon" "int32_t" 0;
      XF "grid_spacing" "uint16_t" 0;
      XF "gridbit" "uint8_t" 0;
      XF "data" "int16_t" 16];
  (* lines 2903-2907 *)
  XM 135%N "TERRAIN_CHECK"
     [XF "lat" "int32_t" 0;
      XF "lon" "int32_t" 0];
  (* lines 2908-2917 *)
  XM 136%N "TERRAIN_REPORT"
     [XF "lat" "int32_t" 0;
      XF "lon" "int32_t" 0;
      XF "spacing" "uint16_t" 0;
      XF "terrain_height" "float" 0;
      XF "current_height" "float" 0;
      XF "pending" "uint16_t" 0;
      XF "loaded" "uint16_t" 0];
  (* lines 2918-2924 *)
  XM 137%N "SCALED_PRESSURE2"
     [XF "time_boot_ms" "uint32_t" 0;
      XF "press_abs" "float" 0;
      XF "press_diff" "float" 0;
      XF "temperature" "float" 0];
  (* lines 2925-2932 *)
  XM 138%N "ATT_POS_MOCAP"
     [XF "time_usec" "uint64_t" 0;
      XF "q" "float" 4;
      XF "x" "float" 0;
      XF "y" "float" 0;
      XF "z" "float" 0];
  (* lines 2933-2940 *)
  XM 139%N "SET_ACTUATOR_CONTROL_TARGET"
     [XF "time_usec" "uint64_t" 0;
      XF "group_mlx" "uint8_t" 0;
      XF "target_system" "uint8_t" 0;
      XF "target_component" "uint8_t" 0;
      XF "controls" "float" 8];
  (* lines 2941-2946 *)
  XM 140%N "ACTUATOR_CONTROL_TARGET"
     [XF "time_usec" "uint64_t" 0;
      XF "group_mlx" "uint8_t" 0;
      XF "controls" "float" 8];
  (* lines 2947-2956 *)
  XM 141%N "ALTITUDE"
     [XF "time_usec" "uint64_t" 0;
      XF "altitude_monotonic" "float" 0;
      XF "altitude_amsl" "float" 0;
      XF "altitude_local" "float" 0;
      XF "altitude_relative" "float" 0;
      XF "altitude_terrain" "float" 0;
      XF "bottom_clearance" "float" 0];
  (* lines 2957-2964 *)
  XM 142%N "RESOURCE_REQUEST"
     [XF "request_id" "uint8_t" 0;
      XF "uri_type" "uint8_t" 0;
      XF "uri" "uint8_t" 120;
      XF "transfer_type" "uint8_t" 0;
      XF "storage" "uint8_t" 120];
  (* lines 2965-2971 *)
  XM 143%N "SCALED_PRESSURE3"
     [XF "time_boot_ms" "uint32_t" 0;
      XF "press_abs" "float" 0;
      XF "press_diff" "float" 0;
      XF "temperature" "float" 0];
  (* lines 2972-2991 *)
  XM 146%N "CONTROL_SYSTEM_STATE"
     [XF "time_usec" "uint64_t" 0;
      XF "x_acc" "float" 0;
      XF "y_acc" "float" 0;
      XF "z_acc" "float" 0;
      XF "x_vel" "float" 0;
      XF "y_vel" "float" 0;
      XF "z_vel" "float" 0;
      XF "x_pos" "float" 0;
      XF "y_pos" "float" 0;
      XF "z_pos" "float" 0;
      XF "airspeed" "float" 0;
      XF "vel_variance" "float" 3;
      XF "pos_variance" "float" 3;
      XF "q" "float" 4;
      XF "roll_rate" "float" 0;
      XF "pitch_rate" "float" 0;
      XF "yaw_rate" "float" 0];
  (* lines 2992-3003 *)
  XM 147%N "BATTERY_STATUS"
     [XF "id" "uint8_t" 0;
      XF "battery_function" "uint8_t" 0;
      XF "type" "uint8_t" 0;
      XF "temperature" "int16_t" 0;
      XF "voltages" "uint16_t" 10;
      XF "current_battery" "int16_t" 0;
      XF "current_consumed" "int32_t" 0;
      XF "energy_consumed" "int32_t" 0;
      XF "battery_remaining" "int8_t" 0];
  (* lines 3004-3018 *)
  XM 148%N "AUTOPILOT_VERSION"
     [XF "capabilities" "uint64_t" 0;
      XF "main_sw_build_time" "uint64_t" 0;
      XF "main_sw_version" "uint32_t" 0;
      XF "mavlink_sw_version" "uint32_t" 0;
      XF "os_sw_version" "uint32_t" 0;
      XF "board_version" "uint32_t" 0;
      XF "main_custom_version" "uint8_t" 8;
      XF "mavlink_custom_version" "uint8_t" 8;
      XF "os_custom_version" "uint8_t" 8;
      XF "vendor_id" "uint16_t" 0;
      XF "product_id" "uint16_t" 0;
      XF "uid" "uint32_t" 3];
  (* lines 3019-3029 *)
  XM 149%N "LANDING_TARGET"
     [XF "time_usec" "uint64_t" 0;
      XF "target_num" "uint8_t" 0;
      XF "frame" "uint8_t" 0;
      XF "angle_x" "float" 0;
      XF "angle_y" "float" 0;
      XF "distance" "float" 0;
      XF "size_x" "float" 0;
      XF "size_y" "float" 0];
  (* lines 3031-3040 *)
  XM 241%N "VIBRATION"
     [XF "time_usec" "uint64_t" 0;
      XF "vibration_x" "float" 0;
      XF "vibration_y" "float" 0;
      XF "vibration_z" "float" 0;
      XF "clipping_0" "uint32_t" 0;
      XF "clipping_1" "uint32_t" 0;
      XF "clipping_2" "uint32_t" 0];
  (* lines 3041-3053 *)
  XM 242%N "HOME_POSITION"
     [XF "latitude" "int32_t" 0;
      XF "longitude" "int32_t" 0;
      XF "altitude" "float" 0;
      XF "x" "float" 0;
      XF "y" "float" 0;
      XF "z" "float" 0;
      XF "q" "float" 4;
      XF "approach_x" "float" 0;
      XF "approach_y" "float" 0;
      XF "approach_z" "float" 0];
  (* lines 3054-3067 *)
  XM 243%N "SET_HOME_POSITION"
     [XF "target_system" "uint8_t" 0;
      XF "latitude" "int32_t" 0;
      XF "longitude" "int32_t" 0;
      XF "altitude" "float" 0;
      XF "x" "float" 0;
      XF "y" "float" 0;
      XF "z" "float" 0;
      XF "q" "float" 4;
      XF "approach_x" "float" 0;
      XF "approach_y" "float" 0;
      XF "approach_z" "float" 0];
  (* lines 3068-3072 *)
  XM 244%N "MESSAGE_INTERVAL"
     [XF "message_id" "uint16_t" 0;
      XF "interval_us" "int32_t" 0];
  (* lines 3073-3077 *)
  XM 245%N "EXTENDED_SYS_STATE"
     [XF "vtol_state" "uint8_t" 0;
      XF "landed_state" "uint8_t" 0];
  (* lines 3078-3093 *)
  XM 246%N "ADSB_VEHICLE"
     [XF "ICAO_address" "uint32_t" 0;
      XF "lat" "int32_t" 0;
      XF "lon" "int32_t" 0;
      XF "altitude_type" "uint8_t" 0;
      XF "altitude" "int32_t" 0;
      XF "heading" "uint16_t" 0;
      XF "hor_velocity" "uint16_t" 0;
      XF "ver_velocity" "uint16_t" 0;
      XF "callsign" "char" 9;
      XF "emitter_type" "uint8_t" 0;
      XF "tslc" "uint8_t" 0;
      XF "flags" "uint16_t" 0;
      XF "squawk" "uint16_t" 0];
  (* lines 3094-3101 *)
  XM 248%N "V2_EXTENSION"
     [XF "target_network" "uint8_t" 0;
      XF "target_system" "uint8_t" 0;
      XF "target_component" "uint8_t" 0;
      XF "message_type" "uint16_t" 0;
      XF "payload" "uint8_t" 249];
  (* lines 3102-3108 *)
  XM 249%N "MEMORY_VECT"
     [XF "address" "uint16_t" 0;
      XF "ver" "uint8_t" 0;
      XF "type" "uint8_t" 0;
      XF "value" "int8_t" 32];
  (* lines 3109-3116 *)
  XM 250%N "DEBUG_VECT"
     [XF "name" "char" 10;
      XF "time_usec" "uint64_t" 0;
      XF "x" "float" 0;
      XF "y" "float" 0;
      XF "z" "float" 0];
  (* lines 3117-3122 *)
  XM 251%N "NAMED_VALUE_FLOAT"
     [XF "time_boot_ms" "uint32_t" 0;
      XF "name" "char" 10;
      XF "value" "float" 0];
  (* lines 3123-3128 *)
  XM 252%N "NAMED_VALUE_INT"
     [XF "time_boot_ms" "uint32_t" 0;
      XF "name" "char" 10;
      XF "value" "int32_t" 0];
  (* lines 3129-3133 *)
  XM 253%N "STATUSTEXT"
     [XF "severity" "uint8_t" 0;
      XF "text" "char" 50];
  (* lines 3134-3139 *)
  XM 254%N "DEBUG"
     [XF "time_boot_ms" "uint32_t" 0;
      XF "ind" "uint8_t" 0;
      XF "value" "float" 0];
  (* lines 3145-3150 *)
  XM 211%N "ALTIMETER_SENSOR"
     [XF "time_boot_ms" "uint32_t" 0;
      XF "Altitude_front" "float" 0;
      XF "Altitude_back" "float" 0];
  (* lines 3151-3159 *)
  XM 212%N "SCALED_SVS"
     [XF "time_boot_ms" "uint32_t" 0;
      XF "Speed_of_Sound" "float" 0;
      XF "Depth" "float" 0;
      XF "Temperature" "uint16_t" 0;
      XF "Status" "uint8_t" 0;
      XF "Reserved" "float" 0];
  (* lines 3160-3168 *)
  XM 213%N "CTD_STATUS"
     [XF "time_boot_ms" "uint32_t" 0;
      XF "Conductivity" "float" 0;
      XF "Depth" "float" 0;
      XF "Temperature" "uint16_t" 0;
      XF "Status" "uint8_t" 0;
      XF "Reserved" "float" 0];
  (* lines 3169-3180 *)
  XM 214%N "MOTOR_STATUS"
     [XF "time_boot_ms" "uint32_t" 0;
      XF "motor_num" "uint8_t" 0;
      XF "rpm" "int16_t" 0;
      XF "voltage" "uint16_t" 0;
      XF "current" "uint16_t" 0;
      XF "Status" "uint8_t" 0;
      XF "Fault" "uint8_t" 0;
      XF "temperature" "uint16_t" 0;
      XF "pressure" "float" 0];
  (* lines 3181-3189 *)
  XM 215%N "RF_MODEM_STATUS"
     [XF "time_boot_ms" "uint32_t" 0;
      XF "Bit_Rate" "uint32_t" 0;
      XF "Status" "uint8_t" 0;
      XF "current" "uint16_t" 0;
      XF "Reserved" "float" 0;
      XF "Reserved2" "float" 0];
  (* lines 3190-3204 *)
  XM 216%N "SYSTEM_ONOFF_REQ"
     [XF "time_boot_ms" "uint32_t" 0;
      XF "status" "uint16_t" 0];
  (* lines 3205-3219 *)
  XM 217%N "SYSTEM_ONOFF_STATUS"
     [XF "time_boot_ms" "uint32_t" 0;
      XF "status" "uint16_t" 0];
  (* lines 3220-3227 *)
  XM 218%N "CHAMBER_STATUS"
     [XF "time_boot_ms" "uint32_t" 0;
      XF "chamber_num" "uint8_t" 0;
      XF "pressure" "uint8_t" 0;
      XF "temperature" "uint16_t" 0;
      XF "humidity" "uint16_t" 0];
  (* lines 3228-3242 *)
  XM 219%N "TASK_STATUS"
     [XF "taskID" "uint8_t" 0;
      XF "task_status" "uint8_t" 0;
      XF "time" "uint16_t" 0;
      XF "task_time" "uint16_t" 0;
      XF "task_count" "uint16_t" 0;
      XF "parse_success_count" "uint16_t" 0;
      XF "parse_error_count" "uint16_t" 0;
      XF "interupt_count" "uint16_t" 0;
      XF "rst_count" "uint16_t" 0;
      XF "err1" "uint8_t" 0;
      XF "err2" "uint8_t" 0];
  (* lines 3243-3273 *)
  XM 220%N "PARAM_EST_TEST"
     [XF "time_boot_ms_imu" "uint32_t" 0;
      XF "time_boot_ms_io" "uint32_t" 0;
      XF "gyro_x" "float" 0;
      XF "gyro_y" "float" 0;
      XF "gyro_z" "float" 0;
      XF "gyro_dot_x" "float" 0;
      XF "gyro_dot_y" "float" 0;
      XF "gyro_dot_z" "float" 0;
      XF "accel_x" "float" 0;
      XF "accel_y" "float" 0;
      XF "accel_z" "float" 0;
      XF "accel_no_g_x" "float" 0;
      XF "accel_no_g_y" "float" 0;
      XF "accel_no_g_z" "float" 0;
      XF "dvl_x" "float" 0;
      XF "dvl_y" "float" 0;
      XF "dvl_z" "float" 0;
      XF "roll" "float" 0;
      XF "pitch" "float" 0;
      XF "yaw" "float" 0;
      XF "motor1_rpm" "int16_t" 0;
      XF "motor2_rpm" "int16_t" 0;
      XF "motor3_rpm" "int16_t" 0;
      XF "motor4_rpm" "int16_t" 0;
      XF "motor5_rpm" "int16_t" 0;
      XF "motor6_rpm" "int16_t" 0;
      XF "motor7_rpm" "int16_t" 0];
  (* lines 3274-3278 *)
  XM 221%N "MOTOR_CMD"
     [XF "mode" "uint8_t" 0;
      XF "speed" "int16_t" 10];
  (* lines 3279-3288 *)
  XM 222%N "BATHYMETRY"
     [XF "time_usec" "uint64_t" 0;
      XF "depth" "float" 0;
      XF "altitude" "float" 0;
      XF "distance" "float" 0;
      XF "range_from_body" "float" 0;
      XF "seabed_phi" "float" 0;
      XF "seabed_theta" "float" 0];
  (* lines 3289-3300 *)
  XM 223%N "POWER_CONSUMPTION_MOTORS"
     [XF "time_boot_ms" "uint32_t" 0;
      XF "current_ml" "float" 0;
      XF "current_mr" "float" 0;
      XF "current_p" "float" 0;
      XF "current_yb" "float" 0;
      XF "current_yf" "float" 0;
      XF "current_wl" "float" 0;
      XF "current_wr" "float" 0;
      XF "battery_voltage" "float" 0];
  (* lines 3301-3312 *)
  XM 224%N "POWER_CONSUMPTION_2"
     [XF "time_boot_ms" "uint32_t" 0;
      XF "current_1" "float" 0;
      XF "voltage_1" "float" 0;
      XF "current_2" "float" 0;
      XF "voltage_2" "float" 0;
      XF "current_3" "float" 0;
      XF "voltage_3" "float" 0;
      XF "current_4" "float" 0;
      XF "voltage_4" "float" 0];
  (* lines 3313-3321 *)
  XM 225%N "SYSTEM_STATUS_2"
     [XF "time_boot_ms" "uint32_t" 0;
      XF "hc_mode" "uint16_t" 0;
      XF "hc_system_status" "uint16_t" 0;
      XF "hc_err_id" "uint32_t" 0;
      XF "debug1" "float" 0;
      XF "debug2" "float" 0];
  (* lines 3322-3332 *)
  XM 226%N "GPS_TIMING"
     [XF "time_boot_ms" "uint32_t" 0;
      XF "tow_ms" "int32_t" 0;
      XF "tow_ns" "int32_t" 0;
      XF "accuracy" "uint32_t" 0;
      XF "local_time_s" "float" 0;
      XF "gps_fix" "uint8_t" 0;
      XF "rtc_month" "uint8_t" 0;
      XF "rtc_day" "uint8_t" 0];
  (* lines 3333-3338 *)
  XM 227%N "MAGNETOMETER_CALIBRATION"
     [XF "time_boot_ms" "uint32_t" 0;
      XF "bias" "float" 3;
      XF "scaling_matrix" "float" 9];
  (* lines 3339-3352 *)
  XM 228%N "ALGORITHM_STATUS"
     [XF "time_boot_ms" "uint32_t" 0;
      XF "rate" "uint16_t" 0;
      XF "nav_type" "uint32_t" 0;
      XF "external_heading" "uint8_t" 0;
      XF "calibrated" "uint8_t" 0;
      XF "reset" "uint8_t" 0;
      XF "hc_maneuver" "uint8_t" 0;
      XF "hc_maneuver2" "uint8_t" 0;
      XF "velocity_inov" "float" 0;
      XF "attitude_cov" "float" 0;
      XF "pos_cov" "float" 0];
  (* lines 3353-3370 *)
  XM 229%N "DVL_BT_RAW"
     [XF "time_boot_ms" "uint32_t" 0;
      XF "v1" "int16_t" 0;
      XF "v2" "int16_t" 0;
      XF "v3" "int16_t" 0;
      XF "v_err" "int16_t" 0;
      XF "wm_v1" "int16_t" 0;
      XF "wm_v2" "int16_t" 0;
      XF "wm_v3" "int16_t" 0;
      XF "wm_v4" "int16_t" 0;
      XF "range_1" "uint32_t" 0;
      XF "range_2" "uint32_t" 0;
      XF "range_3" "uint32_t" 0;
      XF "range_4" "uint32_t" 0;
      XF "good_beams_precentege" "uint8_t" 0;
      XF "ensamble_number" "uint32_t" 0];
  (* lines 3371-3379 *)
  XM 230%N "DVL_BT_SCALED"
     [XF "time_boot_ms" "uint32_t" 0;
      XF "v1" "float" 0;
      XF "v2" "float" 0;
      XF "v3" "float" 0;
      XF "altitude" "float" 0;
      XF "distance" "float" 0];
  (* lines 3381-3409 *)
  XM 231%N "DVL_BT_HIGHRES"
     [XF "time_boot_ms" "uint32_t" 0;
      XF "V1" "int32_t" 0;
      XF "V2" "int32_t" 0;
      XF "V3" "int32_t" 0;
      XF "V4" "int32_t" 0;
      XF "Bt_Dmg_1" "int32_t" 0;
      XF "Bt_Dmg_2" "int32_t" 0;
      XF "Bt_Dmg_3" "int32_t" 0;
      XF "Bt_Dmg_4" "int32_t" 0;
      XF "Ref_Frame" "uint8_t" 0;
      XF "Wm_V1" "int32_t" 0;
      XF "Wm_V2" "int32_t" 0;
      XF "Wm_V3" "int32_t" 0;
      XF "Wm_V4" "int32_t" 0;
      XF "Svs" "uint32_t" 0;
      XF "Slant_range" "uint32_t" 0;
      XF "Axes_delta_range" "uint32_t" 0;
      XF "Vertical_range" "uint32_t" 0;
      XF "Percent_good_4bm" "uint8_t" 0;
      XF "Percent_good_12bm" "uint8_t" 0;
      XF "Percent_good_34bm" "uint8_t" 0;
      XF "Bm_1_raw_range" "uint32_t" 0;
      XF "Bm_2_raw_range" "uint32_t" 0;
      XF "Bm_3_raw_range" "uint32_t" 0;
      XF "Bm_4_raw_range" "uint32_t" 0];
  (* lines 3410-3431 *)
  XM 232%N "DVL_WP_RAW"
     [XF "time_boot_ms" "uint32_t" 0;
      XF "Depth_Cell_ID" "uint8_t" 0;
      XF "v1" "int16_t" 0;
      XF "v2" "int16_t" 0;
      XF "v3" "int16_t" 0;
      XF "v_err" "int16_t" 0;
      XF "Depth_Correlation_1" "uint8_t" 0;
      XF "Depth_Correlation_2" "uint8_t" 0;
      XF "Depth_Correlation_3" "uint8_t" 0;
      XF "Depth_Correlation_4" "uint8_t" 0;
      XF "Depth_Echo_Intensity_1" "uint8_t" 0;
      XF "Depth_Echo_Intensity_2" "uint8_t" 0;
      XF "Depth_Echo_Intensity_3" "uint8_t" 0;
      XF "Depth_Echo_Intensity_4" "uint8_t" 0;
      XF "Percent_Good_1" "uint8_t" 0;
      XF "Percent_Good_2" "uint8_t" 0;
      XF "Percent_Good_3" "uint8_t" 0;
      XF "Percent_Good_4" "uint8_t" 0;
      XF "status" "uint8_t" 0];
  (* lines 3432-3442 *)
  XM 233%N "TIME_DATE_INFO"
     [XF "time_boot_ms" "uint32_t" 0;
      XF "year" "uint16_t" 0;
      XF "month" "uint8_t" 0;
      XF "day" "uint8_t" 0;
      XF "hours" "uint8_t" 0;
      XF "minutes" "uint8_t" 0;
      XF "seconds" "uint8_t" 0;
      XF "millisec" "uint16_t" 0];
  (* lines 3443-3449 *)
  XM 234%N "PINGER_DATA"
     [XF "time_boot_ms" "uint32_t" 0;
      XF "range" "float" 0;
      XF "azimuth" "float" 0];
  (* lines 3450-3458 *)
  XM 235%N "HC_ACOUSTIC_POS"
     [XF "time_boot_ms" "uint32_t" 0;
      XF "range" "float" 0;
      XF "azimuth" "float" 0;
      XF "lat_1" "int32_t" 0;
      XF "lon_1" "int32_t" 0;
      XF "tow_1" "uint32_t" 0];
  (* lines 3459-3468 *)
  XM 236%N "DEBUG_MSG_1"
     [XF "time_boot_ms" "uint32_t" 0;
      XF "debug_1_1" "float" 0;
      XF "debug_1_2" "float" 0;
      XF "debug_1_3" "float" 0;
      XF "debug_1_4" "float" 0;
      XF "debug_1_5" "float" 0;
      XF "debug_1_6" "float" 0];
  (* lines 3469-3480 *)
  XM 237%N "HC_ACOUSTIC_CHANNEL"
     [XF "time_boot_ms" "uint32_t" 0;
      XF "mpd" "float" 0;
      XF "psnr" "float" 0;
      XF "agc" "int32_t" 0;
      XF "spd" "float" 0;
      XF "crc_pass" "uint8_t" 0;
      XF "ccerr" "uint8_t" 0;
      XF "source" "uint8_t" 0;
      XF "destination" "uint8_t" 0];
  (* lines 3481-3488 *)
  XM 238%N "ACOUSTIC_TRANSMISSION_LOG"
     [XF "time_boot_ms" "uint32_t" 0;
      XF "tow_ms" "int32_t" 0;
      XF "count" "uint8_t" 0;
      XF "slot_num" "uint8_t" 0;
      XF "data" "uint8_t" 200]
].

(** <messages>; mavlink_utils/minimal_dialect.xml:1825-1883. *)
Definition minimal_xml : list xmsg :=
[
  (* lines 1826-1834 *)
  XM 0%N "HEARTBEAT"
     [XF "type" "uint8_t" 0;
      XF "autopilot" "uint8_t" 0;
      XF "base_mode" "uint8_t" 0;
      XF "custom_mode" "uint32_t" 0;
      XF "system_status" "uint8_t" 0;
      XF "mavlink_version" "uint8_t_mavlink_version" 0];
  (* lines 1835-1849 *)
  XM 33%N "GLOBAL_POSITION_INT"
     [XF "time_boot_ms" "uint32_t" 0;
      XF "lat" "int32_t" 0;
      XF "lon" "int32_t" 0;
      XF "alt" "float" 0;
      XF "relative_alt" "float" 0;
      XF "bottom_clearnce" "float" 0;
      XF "depth" "float" 0;
      XF "vx" "float" 0;
      XF "vy" "float" 0;
      XF "vz" "float" 0;
      XF "hdg" "float" 0];
  (* lines 1850-1858 *)
  XM 212%N "SCALED_SVS"
     [XF "time_boot_ms" "uint32_t" 0;
      XF "Speed_of_Sound" "float" 0;
      XF "Depth" "float" 0;
      XF "Temperature" "uint16_t" 0;
      XF "Status" "uint8_t" 0;
      XF "Reserved" "float" 0];
  (* lines 1859-1866 *)
  XM 218%N "CHAMBER_STATUS"
     [XF "time_boot_ms" "uint32_t" 0;
      XF "chamber_num" "uint8_t" 0;
      XF "pressure" "uint8_t" 0;
      XF "temperature" "uint16_t" 0;
      XF "humidity" "uint16_t" 0];
  (* lines 1867-1875 *)
  XM 225%N "SYSTEM_STATUS_2"
     [XF "time_boot_ms" "uint32_t" 0;
      XF "hc_mode" "uint16_t" 0;
      XF "hc_system_status" "uint16_t" 0;
      XF "hc_err_id" "uint32_t" 0;
      XF "debug1" "float" 0;
      XF "debug2" "float" 0];
  (* lines 1876-1882 *)
  XM 234%N "PINGER_DATA"
     [XF "time_boot_ms" "uint32_t" 0;
      XF "range" "float" 0;
      XF "azimuth" "float" 0]
].

