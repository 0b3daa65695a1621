(** The enumerations of the dialects: generated from the XML files and from the generated modules by tools/gen_enums.py.
    Left out: descriptions and the texts of parameters.
    mavlink_utils/HC_dialect.xml, mavlink_utils/minimal_dialect.xml, mavlink_utils/HC_dialect.py, mavlink_utils/minimal_dialect.py. *)
From Coq Require Import String List NArith.
Import ListNotations.
Local Open Scope string_scope.
Local Open Scope N_scope.

(** <entry value="..." name="..."> with the indices of its <param index="...">; mavlink_utils/HC_dialect.xml, e.g. line 7. *)
Record xentry := XE { xe_name : string; xe_value : option N; xe_params : list N }.
(** <enum name="..."> and its entries in the order of the file; mavlink_utils/HC_dialect.xml, e.g. line 5. *)
Record xenum := XEnum { xn_name : string; xn_entries : list xentry }.

(** A statement of the enums part of a module; mavlink_utils/HC_dialect.py, e.g. lines 270, 271, 272 and 765. *)
Inductive estmt :=
| SEnum (e : string)                    (* enums['e'] = {} *)
| SConst (n : string) (v : N)           (* n = v *)
| SEntry (e : string) (v : N) (n : string)   (* enums['e'][v] = EnumEntry('n', ...) *)
| SParam (e : string) (v i : N).        (* enums['e'][v].param[i] = ... *)

(** <enums>; mavlink_utils/HC_dialect.xml:4-1824. *)
Definition hc_xml_enums : list xenum :=
[
  XEnum "MAV_AUTOPILOT"
    [XE "MAV_AUTOPILOT_GENERIC" (Some 0) [];
     XE "MAV_AUTOPILOT_RESERVED" (Some 1) [];
     XE "MAV_AUTOPILOT_SLUGS" (Some 2) [];
     XE "MAV_AUTOPILOT_ARDUPILOTMEGA" (Some 3) [];
     XE "MAV_AUTOPILOT_OPENPILOT" (Some 4) [];
     XE "MAV_AUTOPILOT_GENERIC_WAYPOINTS_ONLY" (Some 5) [];
     XE "MAV_AUTOPILOT_GENERIC_WAYPOINTS_AND_SIMPLE_NAVIGATION_ONLY" (Some 6) [];
     XE "MAV_AUTOPILOT_GENERIC_MISSION_FULL" (Some 7) [];
     XE "MAV_AUTOPILOT_INVALID" (Some 8) [];
     XE "MAV_AUTOPILOT_PPZ" (Some 9) [];
     XE "MAV_AUTOPILOT_UDB" (Some 10) [];
     XE "MAV_AUTOPILOT_FP" (Some 11) [];
     XE "MAV_AUTOPILOT_PX4" (Some 12) [];
     XE "MAV_AUTOPILOT_SMACCMPILOT" (Some 13) [];
     XE "MAV_AUTOPILOT_AUTOQUAD" (Some 14) [];
     XE "MAV_AUTOPILOT_ARMAZILA" (Some 15) [];
     XE "MAV_AUTOPILOT_AEROB" (Some 16) [];
     XE "MAV_AUTOPILOT_ASLUAV" (Some 17) []];
  XEnum "MAV_TYPE"
    [XE "MAV_TYPE_GENERIC" (Some 0) [];
     XE "MAV_TYPE_FIXED_WING" (Some 1) [];
     XE "MAV_TYPE_QUADROTOR" (Some 2) [];
     XE "MAV_TYPE_COAXIAL" (Some 3) [];
     XE "MAV_TYPE_HELICOPTER" (Some 4) [];
     XE "MAV_TYPE_ANTENNA_TRACKER" (Some 5) [];
     XE "MAV_TYPE_GCS" (Some 6) [];
     XE "MAV_TYPE_AIRSHIP" (Some 7) [];
     XE "MAV_TYPE_FREE_BALLOON" (Some 8) [];
     XE "MAV_TYPE_ROCKET" (Some 9) [];
     XE "MAV_TYPE_GROUND_ROVER" (Some 10) [];
     XE "MAV_TYPE_SURFACE_BOAT" (Some 11) [];
     XE "MAV_TYPE_SUBMARINE" (Some 12) [];
     XE "MAV_TYPE_HEXAROTOR" (Some 13) [];
     XE "MAV_TYPE_OCTOROTOR" (Some 14) [];
     XE "MAV_TYPE_TRICOPTER" (Some 15) [];
     XE "MAV_TYPE_FLAPPING_WING" (Some 16) [];
     XE "MAV_TYPE_KITE" (Some 17) [];
     XE "MAV_TYPE_ONBOARD_CONTROLLER" (Some 18) [];
     XE "MAV_TYPE_VTOL_DUOROTOR" (Some 19) [];
     XE "MAV_TYPE_VTOL_QUADROTOR" (Some 20) [];
     XE "MAV_TYPE_VTOL_TILTROTOR" (Some 21) [];
     XE "MAV_TYPE_VTOL_RESERVED2" (Some 22) [];
     XE "MAV_TYPE_VTOL_RESERVED3" (Some 23) [];
     XE "MAV_TYPE_VTOL_RESERVED4" (Some 24) [];
     XE "MAV_TYPE_VTOL_RESERVED5" (Some 25) [];
     XE "MAV_TYPE_GIMBAL" (Some 26) [];
     XE "MAV_TYPE_ADSB" (Some 27) []];
  XEnum "FIRMWARE_VERSION_TYPE"
    [XE "FIRMWARE_VERSION_TYPE_DEV" (Some 0) [];
     XE "FIRMWARE_VERSION_TYPE_ALPHA" (Some 64) [];
     XE "FIRMWARE_VERSION_TYPE_BETA" (Some 128) [];
     XE "FIRMWARE_VERSION_TYPE_RC" (Some 192) [];
     XE "FIRMWARE_VERSION_TYPE_OFFICIAL" (Some 255) []];
  XEnum "MAV_MODE_FLAG"
    [XE "MAV_MODE_FLAG_SAFETY_ARMED" (Some 128) [];
     XE "MAV_MODE_FLAG_MANUAL_INPUT_ENABLED" (Some 64) [];
     XE "MAV_MODE_FLAG_HIL_ENABLED" (Some 32) [];
     XE "MAV_MODE_FLAG_STABILIZE_ENABLED" (Some 16) [];
     XE "MAV_MODE_FLAG_GUIDED_ENABLED" (Some 8) [];
     XE "MAV_MODE_FLAG_AUTO_ENABLED" (Some 4) [];
     XE "MAV_MODE_FLAG_TEST_ENABLED" (Some 2) [];
     XE "MAV_MODE_FLAG_CUSTOM_MODE_ENABLED" (Some 1) []];
  XEnum "MAV_MODE_FLAG_DECODE_POSITION"
    [XE "MAV_MODE_FLAG_DECODE_POSITION_SAFETY" (Some 128) [];
     XE "MAV_MODE_FLAG_DECODE_POSITION_MANUAL" (Some 64) [];
     XE "MAV_MODE_FLAG_DECODE_POSITION_HIL" (Some 32) [];
     XE "MAV_MODE_FLAG_DECODE_POSITION_STABILIZE" (Some 16) [];
     XE "MAV_MODE_FLAG_DECODE_POSITION_GUIDED" (Some 8) [];
     XE "MAV_MODE_FLAG_DECODE_POSITION_AUTO" (Some 4) [];
     XE "MAV_MODE_FLAG_DECODE_POSITION_TEST" (Some 2) [];
     XE "MAV_MODE_FLAG_DECODE_POSITION_CUSTOM_MODE" (Some 1) []];
  XEnum "MAV_GOTO"
    [XE "MAV_GOTO_DO_HOLD" (Some 0) [];
     XE "MAV_GOTO_DO_CONTINUE" (Some 1) [];
     XE "MAV_GOTO_HOLD_AT_CURRENT_POSITION" (Some 2) [];
     XE "MAV_GOTO_HOLD_AT_SPECIFIED_POSITION" (Some 3) []];
  XEnum "MAV_MODE"
    [XE "MAV_MODE_PREFLIGHT" (Some 0) [];
     XE "MAV_MODE_STOP" (Some 32) [];
     XE "MAV_MODE_STABILIZE_DISARMED" (Some 80) [];
     XE "MAV_MODE_STABILIZE_ARMED" (Some 208) [];
     XE "MAV_MODE_MANUAL_DISARMED" (Some 64) [];
     XE "MAV_MODE_MANUAL_ARMED" (Some 192) [];
     XE "MAV_MODE_GUIDED_DISARMED" (Some 88) [];
     XE "MAV_MODE_GUIDED_ARMED" (Some 216) [];
     XE "MAV_MODE_AUTO_DISARMED" (Some 92) [];
     XE "MAV_MODE_AUTO_ARMED" (Some 220) [];
     XE "MAV_MODE_TEST_DISARMED" (Some 66) [];
     XE "MAV_MODE_TEST_ARMED" (Some 194) []];
  XEnum "MAV_STATE"
    [XE "MAV_STATE_UNINIT" (Some 0) [];
     XE "MAV_STATE_BOOT" None [];
     XE "MAV_STATE_CALIBRATING" None [];
     XE "MAV_STATE_STANDBY" None [];
     XE "MAV_STATE_ACTIVE" None [];
     XE "MAV_STATE_CRITICAL" None [];
     XE "MAV_STATE_EMERGENCY" None [];
     XE "MAV_STATE_POWEROFF" None []];
  XEnum "MAV_COMPONENT"
    [XE "MAV_COMP_ID_ALL" (Some 0) [];
     XE "MAV_COMP_ID_GPS" (Some 220) [];
     XE "MAV_COMP_ID_MISSIONPLANNER" (Some 190) [];
     XE "MAV_COMP_ID_PATHPLANNER" (Some 195) [];
     XE "MAV_COMP_ID_MAPPER" (Some 180) [];
     XE "MAV_COMP_ID_CAMERA" (Some 100) [];
     XE "MAV_COMP_ID_IMU" (Some 200) [];
     XE "MAV_COMP_ID_IMU_2" (Some 201) [];
     XE "MAV_COMP_ID_IMU_3" (Some 202) [];
     XE "MAV_COMP_ID_UDP_BRIDGE" (Some 240) [];
     XE "MAV_COMP_ID_UART_BRIDGE" (Some 241) [];
     XE "MAV_COMP_ID_SYSTEM_CONTROL" (Some 250) [];
     XE "MAV_COMP_ID_SERVO1" (Some 140) [];
     XE "MAV_COMP_ID_SERVO2" (Some 141) [];
     XE "MAV_COMP_ID_SERVO3" (Some 142) [];
     XE "MAV_COMP_ID_SERVO4" (Some 143) [];
     XE "MAV_COMP_ID_SERVO5" (Some 144) [];
     XE "MAV_COMP_ID_SERVO6" (Some 145) [];
     XE "MAV_COMP_ID_SERVO7" (Some 146) [];
     XE "MAV_COMP_ID_SERVO8" (Some 147) [];
     XE "MAV_COMP_ID_SERVO9" (Some 148) [];
     XE "MAV_COMP_ID_SERVO10" (Some 149) [];
     XE "MAV_COMP_ID_SERVO11" (Some 150) [];
     XE "MAV_COMP_ID_SERVO12" (Some 151) [];
     XE "MAV_COMP_ID_SERVO13" (Some 152) [];
     XE "MAV_COMP_ID_SERVO14" (Some 153) [];
     XE "MAV_COMP_ID_GIMBAL" (Some 154) [];
     XE "MAV_COMP_ID_LOG" (Some 155) [];
     XE "MAV_COMP_ID_ADSB" (Some 156) []];
  XEnum "MAV_SYS_STATUS_SENSOR"
    [XE "MAV_SYS_STATUS_SENSOR_3D_GYRO" (Some 1) [];
     XE "MAV_SYS_STATUS_SENSOR_3D_ACCEL" (Some 2) [];
     XE "MAV_SYS_STATUS_SENSOR_3D_MAG" (Some 4) [];
     XE "MAV_SYS_STATUS_SENSOR_ABSOLUTE_PRESSURE" (Some 8) [];
     XE "MAV_SYS_STATUS_SENSOR_DIFFERENTIAL_PRESSURE" (Some 16) [];
     XE "MAV_SYS_STATUS_SENSOR_GPS" (Some 32) [];
     XE "MAV_SYS_STATUS_SENSOR_OPTICAL_FLOW" (Some 64) [];
     XE "MAV_SYS_STATUS_SENSOR_VISION_POSITION" (Some 128) [];
     XE "MAV_SYS_STATUS_SENSOR_LASER_POSITION" (Some 256) [];
     XE "MAV_SYS_STATUS_SENSOR_EXTERNAL_GROUND_TRUTH" (Some 512) [];
     XE "MAV_SYS_STATUS_SENSOR_ANGULAR_RATE_CONTROL" (Some 1024) [];
     XE "MAV_SYS_STATUS_SENSOR_ATTITUDE_STABILIZATION" (Some 2048) [];
     XE "MAV_SYS_STATUS_SENSOR_YAW_POSITION" (Some 4096) [];
     XE "MAV_SYS_STATUS_SENSOR_Z_ALTITUDE_CONTROL" (Some 8192) [];
     XE "MAV_SYS_STATUS_SENSOR_XY_POSITION_CONTROL" (Some 16384) [];
     XE "MAV_SYS_STATUS_SENSOR_MOTOR_OUTPUTS" (Some 32768) [];
     XE "MAV_SYS_STATUS_SENSOR_RC_RECEIVER" (Some 65536) [];
     XE "MAV_SYS_STATUS_SENSOR_3D_GYRO2" (Some 131072) [];
     XE "MAV_SYS_STATUS_SENSOR_3D_ACCEL2" (Some 262144) [];
     XE "MAV_SYS_STATUS_SENSOR_3D_MAG2" (Some 524288) [];
     XE "MAV_SYS_STATUS_GEOFENCE" (Some 1048576) [];
     XE "MAV_SYS_STATUS_AHRS" (Some 2097152) [];
     XE "MAV_SYS_STATUS_TERRAIN" (Some 4194304) []];
  XEnum "MAV_FRAME"
    [XE "MAV_FRAME_GLOBAL" (Some 0) [];
     XE "MAV_FRAME_LOCAL_NED" (Some 1) [];
     XE "MAV_FRAME_MISSION" (Some 2) [];
     XE "MAV_FRAME_GLOBAL_RELATIVE_ALT" (Some 3) [];
     XE "MAV_FRAME_LOCAL_ENU" (Some 4) [];
     XE "MAV_FRAME_GLOBAL_INT" (Some 5) [];
     XE "MAV_FRAME_GLOBAL_RELATIVE_ALT_INT" (Some 6) [];
     XE "MAV_FRAME_LOCAL_OFFSET_NED" (Some 7) [];
     XE "MAV_FRAME_BODY_NED" (Some 8) [];
     XE "MAV_FRAME_BODY_OFFSET_NED" (Some 9) [];
     XE "MAV_FRAME_GLOBAL_TERRAIN_ALT" (Some 10) [];
     XE "MAV_FRAME_GLOBAL_TERRAIN_ALT_INT" (Some 11) [];
     XE "MAV_FRAME_HCMISSION" (Some 12) []];
  XEnum "MAVLINK_DATA_STREAM_TYPE"
    [XE "MAVLINK_DATA_STREAM_IMG_JPEG" None [];
     XE "MAVLINK_DATA_STREAM_IMG_BMP" None [];
     XE "MAVLINK_DATA_STREAM_IMG_RAW8U" None [];
     XE "MAVLINK_DATA_STREAM_IMG_RAW32U" None [];
     XE "MAVLINK_DATA_STREAM_IMG_PGM" None [];
     XE "MAVLINK_DATA_STREAM_IMG_PNG" None []];
  XEnum "FENCE_ACTION"
    [XE "FENCE_ACTION_NONE" (Some 0) [];
     XE "FENCE_ACTION_GUIDED" (Some 1) [];
     XE "FENCE_ACTION_REPORT" (Some 2) [];
     XE "FENCE_ACTION_GUIDED_THR_PASS" (Some 3) []];
  XEnum "FENCE_BREACH"
    [XE "FENCE_BREACH_NONE" (Some 0) [];
     XE "FENCE_BREACH_MINALT" (Some 1) [];
     XE "FENCE_BREACH_MAXALT" (Some 2) [];
     XE "FENCE_BREACH_BOUNDARY" (Some 3) []];
  XEnum "MAV_MOUNT_MODE"
    [XE "MAV_MOUNT_MODE_RETRACT" (Some 0) [];
     XE "MAV_MOUNT_MODE_NEUTRAL" (Some 1) [];
     XE "MAV_MOUNT_MODE_MAVLINK_TARGETING" (Some 2) [];
     XE "MAV_MOUNT_MODE_RC_TARGETING" (Some 3) [];
     XE "MAV_MOUNT_MODE_GPS_POINT" (Some 4) []];
  XEnum "MAV_CMD"
    [XE "MAV_CMD_NAV_WAYPOINT" (Some 16) [1; 2; 3; 4; 5; 6; 7];
     XE "MAV_CMD_NAV_LOITER_UNLIM" (Some 17) [1; 2; 3; 4; 5; 6; 7];
     XE "MAV_CMD_NAV_LOITER_TURNS" (Some 18) [1; 2; 3; 4; 5; 6; 7];
     XE "MAV_CMD_NAV_LOITER_TIME" (Some 19) [1; 2; 3; 4; 5; 6; 7];
     XE "MAV_CMD_NAV_RETURN_TO_LAUNCH" (Some 20) [1; 2; 3; 4; 5; 6; 7];
     XE "MAV_CMD_NAV_LAND" (Some 21) [1; 2; 3; 4; 5; 6; 7];
     XE "MAV_CMD_NAV_SAFETY_REGION" (Some 22) [1; 2; 3; 4; 5; 6; 7];
     XE "MAV_CMD_NAV_LAND_LOCAL" (Some 23) [1; 2; 3; 4; 5; 6; 7];
     XE "MAV_CMD_NAV_TAKEOFF_LOCAL" (Some 24) [1; 2; 3; 4; 5; 6; 7];
     XE "MAV_CMD_NAV_FOLLOW" (Some 25) [1; 2; 3; 4; 5; 6; 7];
     XE "MAV_CMD_NAV_CONTINUE_AND_CHANGE_ALT" (Some 30) [1; 2; 3; 4; 5; 6; 7];
     XE "MAV_CMD_NAV_LOITER_TO_ALT" (Some 31) [1; 2; 3; 4; 5; 6; 7];
     XE "MAV_CMD_NAV_ROI" (Some 80) [1; 2; 3; 4; 5; 6; 7];
     XE "MAV_CMD_NAV_PATHPLANNING" (Some 81) [1; 2; 3; 4; 5; 6; 7];
     XE "MAV_CMD_NAV_SPLINE_WAYPOINT" (Some 82) [1; 2; 3; 4; 5; 6; 7];
     XE "MAV_CMD_NAV_VTOL_TAKEOFF" (Some 84) [1; 2; 3; 4; 5; 6; 7];
     XE "MAV_CMD_NAV_VTOL_LAND" (Some 85) [1; 2; 3; 4; 5; 6; 7];
     XE "MAV_CMD_NAV_GUIDED_ENABLE" (Some 92) [1; 2; 3; 4; 5; 6; 7];
     XE "MAV_CMD_NAV_LAST" (Some 95) [1; 2; 3; 4; 5; 6; 7];
     XE "MAV_CMD_CONDITION_DELAY" (Some 112) [1; 2; 3; 4; 5; 6; 7];
     XE "MAV_CMD_CONDITION_CHANGE_ALT" (Some 113) [1; 2; 3; 4; 5; 6; 7];
     XE "MAV_CMD_CONDITION_DISTANCE" (Some 114) [1; 2; 3; 4; 5; 6; 7];
     XE "MAV_CMD_CONDITION_YAW" (Some 115) [1; 2; 3; 4; 5; 6; 7];
     XE "MAV_CMD_CONDITION_LAST" (Some 159) [1; 2; 3; 4; 5; 6; 7];
     XE "MAV_CMD_DO_SET_MODE" (Some 176) [1; 2; 3; 4; 5; 6; 7];
     XE "MAV_CMD_DO_JUMP" (Some 177) [1; 2; 3; 4; 5; 6; 7];
     XE "MAV_CMD_DO_CHANGE_SPEED" (Some 178) [1; 2; 3; 4; 5; 6; 7];
     XE "MAV_CMD_DO_SET_HOME" (Some 179) [1; 2; 3; 4; 5; 6; 7];
     XE "MAV_CMD_DO_SET_PARAMETER" (Some 180) [1; 2; 3; 4; 5; 6; 7];
     XE "MAV_CMD_DO_SET_RELAY" (Some 181) [1; 2; 3; 4; 5; 6; 7];
     XE "MAV_CMD_DO_REPEAT_RELAY" (Some 182) [1; 2; 3; 4; 5; 6; 7];
     XE "MAV_CMD_DO_SET_SERVO" (Some 183) [1; 2; 3; 4; 5; 6; 7];
     XE "MAV_CMD_DO_REPEAT_SERVO" (Some 184) [1; 2; 3; 4; 5; 6; 7];
     XE "MAV_CMD_DO_FLIGHTTERMINATION" (Some 185) [1; 2; 3; 4; 5; 6; 7];
     XE "MAV_CMD_DO_LAND_START" (Some 189) [1; 2; 3; 4; 5; 6; 7];
     XE "MAV_CMD_DO_RALLY_LAND" (Some 190) [1; 2; 3; 4; 5; 6; 7];
     XE "MAV_CMD_DO_GO_AROUND" (Some 191) [1; 2; 3; 4; 5; 6; 7];
     XE "MAV_CMD_DO_CONTROL_VIDEO" (Some 200) [1; 2; 3; 4; 5; 6; 7];
     XE "MAV_CMD_DO_SET_ROI" (Some 201) [1; 2; 3; 4; 5; 6; 7];
     XE "MAV_CMD_DO_DIGICAM_CONFIGURE" (Some 202) [1; 2; 3; 4; 5; 6; 7];
     XE "MAV_CMD_DO_DIGICAM_CONTROL" (Some 203) [1; 2; 3; 4; 5; 6; 7];
     XE "MAV_CMD_DO_MOUNT_CONFIGURE" (Some 204) [1; 2; 3; 4; 5; 6; 7];
     XE "MAV_CMD_DO_MOUNT_CONTROL" (Some 205) [1; 2; 3; 4; 5; 6; 7];
     XE "MAV_CMD_DO_SET_CAM_TRIGG_DIST" (Some 206) [1; 2; 3; 4; 5; 6; 7];
     XE "MAV_CMD_DO_FENCE_ENABLE" (Some 207) [1; 2; 3; 4; 5; 6; 7];
     XE "MAV_CMD_DO_PARACHUTE" (Some 208) [1; 2; 3; 4; 5; 6; 7];
     XE "MAV_CMD_DO_INVERTED_FLIGHT" (Some 210) [1; 2; 3; 4; 5; 6; 7];
     XE "MAV_CMD_DO_MOUNT_CONTROL_QUAT" (Some 220) [1; 2; 3; 4; 5; 6; 7];
     XE "MAV_CMD_DO_GUIDED_MASTER" (Some 221) [1; 2; 3; 4; 5; 6; 7];
     XE "MAV_CMD_DO_GUIDED_LIMITS" (Some 222) [1; 2; 3; 4; 5; 6; 7];
     XE "MAV_CMD_DO_LAST" (Some 240) [1; 2; 3; 4; 5; 6; 7];
     XE "MAV_CMD_PREFLIGHT_CALIBRATION" (Some 241) [1; 2; 3; 4; 5; 6; 7];
     XE "MAV_CMD_PREFLIGHT_SET_SENSOR_OFFSETS" (Some 242) [1; 2; 3; 4; 5; 6; 7];
     XE "MAV_CMD_PREFLIGHT_UAVCAN" (Some 243) [1; 2; 3; 4; 5; 6; 7];
     XE "MAV_CMD_PREFLIGHT_STORAGE" (Some 245) [1; 2; 3; 4; 5; 6; 7];
     XE "MAV_CMD_PREFLIGHT_REBOOT_SHUTDOWN" (Some 246) [1; 2; 3; 4; 5; 6; 7];
     XE "MAV_CMD_OVERRIDE_GOTO" (Some 252) [1; 2; 3; 4; 5; 6; 7];
     XE "MAV_CMD_MISSION_START" (Some 300) [1; 2];
     XE "MAV_CMD_COMPONENT_ARM_DISARM" (Some 400) [1];
     XE "MAV_CMD_GET_HOME_POSITION" (Some 410) [1; 2; 3; 4; 5; 6; 7];
     XE "MAV_CMD_START_RX_PAIR" (Some 500) [1; 2];
     XE "MAV_CMD_GET_MESSAGE_INTERVAL" (Some 510) [1];
     XE "MAV_CMD_SET_MESSAGE_INTERVAL" (Some 511) [1; 2];
     XE "MAV_CMD_REQUEST_AUTOPILOT_CAPABILITIES" (Some 520) [1; 2];
     XE "MAV_CMD_IMAGE_START_CAPTURE" (Some 2000) [1; 2; 3];
     XE "MAV_CMD_IMAGE_STOP_CAPTURE" (Some 2001) [1; 2];
     XE "MAV_CMD_DO_TRIGGER_CONTROL" (Some 2003) [1; 2; 3];
     XE "MAV_CMD_VIDEO_START_CAPTURE" (Some 2500) [1; 2; 3];
     XE "MAV_CMD_VIDEO_STOP_CAPTURE" (Some 2501) [1; 2];
     XE "MAV_CMD_PANORAMA_CREATE" (Some 2800) [1; 2; 3; 4];
     XE "MAV_CMD_DO_VTOL_TRANSITION" (Some 3000) [1];
     XE "MAV_CMD_PAYLOAD_PREPARE_DEPLOY" (Some 30001) [1; 2; 3; 4; 5; 6; 7];
     XE "MAV_CMD_PAYLOAD_CONTROL_DEPLOY" (Some 30002) [1; 2; 3; 4; 5; 6; 7]];
  XEnum "MAV_DATA_STREAM"
    [XE "MAV_DATA_STREAM_ALL" (Some 0) [];
     XE "MAV_DATA_STREAM_RAW_SENSORS" (Some 1) [];
     XE "MAV_DATA_STREAM_EXTENDED_STATUS" (Some 2) [];
     XE "MAV_DATA_STREAM_RC_CHANNELS" (Some 3) [];
     XE "MAV_DATA_STREAM_RAW_CONTROLLER" (Some 4) [];
     XE "MAV_DATA_STREAM_POSITION" (Some 6) [];
     XE "MAV_DATA_STREAM_EXTRA1" (Some 10) [];
     XE "MAV_DATA_STREAM_EXTRA2" (Some 11) [];
     XE "MAV_DATA_STREAM_EXTRA3" (Some 12) []];
  XEnum "MAV_ROI"
    [XE "MAV_ROI_NONE" (Some 0) [];
     XE "MAV_ROI_WPNEXT" (Some 1) [];
     XE "MAV_ROI_WPINDEX" (Some 2) [];
     XE "MAV_ROI_LOCATION" (Some 3) [];
     XE "MAV_ROI_TARGET" (Some 4) []];
  XEnum "MAV_CMD_ACK"
    [XE "MAV_CMD_ACK_OK" None [];
     XE "MAV_CMD_ACK_ERR_FAIL" None [];
     XE "MAV_CMD_ACK_ERR_ACCESS_DENIED" None [];
     XE "MAV_CMD_ACK_ERR_NOT_SUPPORTED" None [];
     XE "MAV_CMD_ACK_ERR_COORDINATE_FRAME_NOT_SUPPORTED" None [];
     XE "MAV_CMD_ACK_ERR_COORDINATES_OUT_OF_RANGE" None [];
     XE "MAV_CMD_ACK_ERR_X_LAT_OUT_OF_RANGE" None [];
     XE "MAV_CMD_ACK_ERR_Y_LON_OUT_OF_RANGE" None [];
     XE "MAV_CMD_ACK_ERR_Z_ALT_OUT_OF_RANGE" None []];
  XEnum "MAV_PARAM_TYPE"
    [XE "MAV_PARAM_TYPE_UINT8" (Some 1) [];
     XE "MAV_PARAM_TYPE_INT8" (Some 2) [];
     XE "MAV_PARAM_TYPE_UINT16" (Some 3) [];
     XE "MAV_PARAM_TYPE_INT16" (Some 4) [];
     XE "MAV_PARAM_TYPE_UINT32" (Some 5) [];
     XE "MAV_PARAM_TYPE_INT32" (Some 6) [];
     XE "MAV_PARAM_TYPE_UINT64" (Some 7) [];
     XE "MAV_PARAM_TYPE_INT64" (Some 8) [];
     XE "MAV_PARAM_TYPE_REAL32" (Some 9) [];
     XE "MAV_PARAM_TYPE_REAL64" (Some 10) []];
  XEnum "MAV_RESULT"
    [XE "MAV_RESULT_ACCEPTED" (Some 0) [];
     XE "MAV_RESULT_TEMPORARILY_REJECTED" (Some 1) [];
     XE "MAV_RESULT_DENIED" (Some 2) [];
     XE "MAV_RESULT_UNSUPPORTED" (Some 3) [];
     XE "MAV_RESULT_FAILED" (Some 4) []];
  XEnum "MAV_MISSION_RESULT"
    [XE "MAV_MISSION_ACCEPTED" (Some 0) [];
     XE "MAV_MISSION_ERROR" (Some 1) [];
     XE "MAV_MISSION_UNSUPPORTED_FRAME" (Some 2) [];
     XE "MAV_MISSION_UNSUPPORTED" (Some 3) [];
     XE "MAV_MISSION_NO_SPACE" (Some 4) [];
     XE "MAV_MISSION_INVALID" (Some 5) [];
     XE "MAV_MISSION_INVALID_PARAM1" (Some 6) [];
     XE "MAV_MISSION_INVALID_PARAM2" (Some 7) [];
     XE "MAV_MISSION_INVALID_PARAM3" (Some 8) [];
     XE "MAV_MISSION_INVALID_PARAM4" (Some 9) [];
     XE "MAV_MISSION_INVALID_PARAM5_X" (Some 10) [];
     XE "MAV_MISSION_INVALID_PARAM6_Y" (Some 11) [];
     XE "MAV_MISSION_INVALID_PARAM7" (Some 12) [];
     XE "MAV_MISSION_INVALID_SEQUENCE" (Some 13) [];
     XE "MAV_MISSION_DENIED" (Some 14) []];
  XEnum "MAV_SEVERITY"
    [XE "MAV_SEVERITY_EMERGENCY" (Some 0) [];
     XE "MAV_SEVERITY_ALERT" (Some 1) [];
     XE "MAV_SEVERITY_CRITICAL" (Some 2) [];
     XE "MAV_SEVERITY_ERROR" (Some 3) [];
     XE "MAV_SEVERITY_WARNING" (Some 4) [];
     XE "MAV_SEVERITY_NOTICE" (Some 5) [];
     XE "MAV_SEVERITY_INFO" (Some 6) [];
     XE "MAV_SEVERITY_DEBUG" (Some 7) []];
  XEnum "MAV_POWER_STATUS"
    [XE "MAV_POWER_STATUS_BRICK_VALID" (Some 1) [];
     XE "MAV_POWER_STATUS_SERVO_VALID" (Some 2) [];
     XE "MAV_POWER_STATUS_USB_CONNECTED" (Some 4) [];
     XE "MAV_POWER_STATUS_PERIPH_OVERCURRENT" (Some 8) [];
     XE "MAV_POWER_STATUS_PERIPH_HIPOWER_OVERCURRENT" (Some 16) [];
     XE "MAV_POWER_STATUS_CHANGED" (Some 32) []];
  XEnum "SERIAL_CONTROL_DEV"
    [XE "SERIAL_CONTROL_DEV_TELEM1" (Some 0) [];
     XE "SERIAL_CONTROL_DEV_TELEM2" (Some 1) [];
     XE "SERIAL_CONTROL_DEV_GPS1" (Some 2) [];
     XE "SERIAL_CONTROL_DEV_GPS2" (Some 3) [];
     XE "SERIAL_CONTROL_DEV_SHELL" (Some 10) []];
  XEnum "SERIAL_CONTROL_FLAG"
    [XE "SERIAL_CONTROL_FLAG_REPLY" (Some 1) [];
     XE "SERIAL_CONTROL_FLAG_RESPOND" (Some 2) [];
     XE "SERIAL_CONTROL_FLAG_EXCLUSIVE" (Some 4) [];
     XE "SERIAL_CONTROL_FLAG_BLOCKING" (Some 8) [];
     XE "SERIAL_CONTROL_FLAG_MULTI" (Some 16) []];
  XEnum "MAV_DISTANCE_SENSOR"
    [XE "MAV_DISTANCE_SENSOR_LASER" (Some 0) [];
     XE "MAV_DISTANCE_SENSOR_ULTRASOUND" (Some 1) [];
     XE "MAV_DISTANCE_SENSOR_INFRARED" (Some 2) []];
  XEnum "MAV_SENSOR_ORIENTATION"
    [XE "MAV_SENSOR_ROTATION_NONE" (Some 0) [];
     XE "MAV_SENSOR_ROTATION_YAW_45" (Some 1) [];
     XE "MAV_SENSOR_ROTATION_YAW_90" (Some 2) [];
     XE "MAV_SENSOR_ROTATION_YAW_135" (Some 3) [];
     XE "MAV_SENSOR_ROTATION_YAW_180" (Some 4) [];
     XE "MAV_SENSOR_ROTATION_YAW_225" (Some 5) [];
     XE "MAV_SENSOR_ROTATION_YAW_270" (Some 6) [];
     XE "MAV_SENSOR_ROTATION_YAW_315" (Some 7) [];
     XE "MAV_SENSOR_ROTATION_ROLL_180" (Some 8) [];
     XE "MAV_SENSOR_ROTATION_ROLL_180_YAW_45" (Some 9) [];
     XE "MAV_SENSOR_ROTATION_ROLL_180_YAW_90" (Some 10) [];
     XE "MAV_SENSOR_ROTATION_ROLL_180_YAW_135" (Some 11) [];
     XE "MAV_SENSOR_ROTATION_PITCH_180" (Some 12) [];
     XE "MAV_SENSOR_ROTATION_ROLL_180_YAW_225" (Some 13) [];
     XE "MAV_SENSOR_ROTATION_ROLL_180_YAW_270" (Some 14) [];
     XE "MAV_SENSOR_ROTATION_ROLL_180_YAW_315" (Some 15) [];
     XE "MAV_SENSOR_ROTATION_ROLL_90" (Some 16) [];
     XE "MAV_SENSOR_ROTATION_ROLL_90_YAW_45" (Some 17) [];
     XE "MAV_SENSOR_ROTATION_ROLL_90_YAW_90" (Some 18) [];
     XE "MAV_SENSOR_ROTATION_ROLL_90_YAW_135" (Some 19) [];
     XE "MAV_SENSOR_ROTATION_ROLL_270" (Some 20) [];
     XE "MAV_SENSOR_ROTATION_ROLL_270_YAW_45" (Some 21) [];
     XE "MAV_SENSOR_ROTATION_ROLL_270_YAW_90" (Some 22) [];
     XE "MAV_SENSOR_ROTATION_ROLL_270_YAW_135" (Some 23) [];
     XE "MAV_SENSOR_ROTATION_PITCH_90" (Some 24) [];
     XE "MAV_SENSOR_ROTATION_PITCH_270" (Some 25) [];
     XE "MAV_SENSOR_ROTATION_PITCH_180_YAW_90" (Some 26) [];
     XE "MAV_SENSOR_ROTATION_PITCH_180_YAW_270" (Some 27) [];
     XE "MAV_SENSOR_ROTATION_ROLL_90_PITCH_90" (Some 28) [];
     XE "MAV_SENSOR_ROTATION_ROLL_180_PITCH_90" (Some 29) [];
     XE "MAV_SENSOR_ROTATION_ROLL_270_PITCH_90" (Some 30) [];
     XE "MAV_SENSOR_ROTATION_ROLL_90_PITCH_180" (Some 31) [];
     XE "MAV_SENSOR_ROTATION_ROLL_270_PITCH_180" (Some 32) [];
     XE "MAV_SENSOR_ROTATION_ROLL_90_PITCH_270" (Some 33) [];
     XE "MAV_SENSOR_ROTATION_ROLL_180_PITCH_270" (Some 34) [];
     XE "MAV_SENSOR_ROTATION_ROLL_270_PITCH_270" (Some 35) [];
     XE "MAV_SENSOR_ROTATION_ROLL_90_PITCH_180_YAW_90" (Some 36) [];
     XE "MAV_SENSOR_ROTATION_ROLL_90_YAW_270" (Some 37) [];
     XE "MAV_SENSOR_ROTATION_ROLL_315_PITCH_315_YAW_315" (Some 38) []];
  XEnum "MAV_PROTOCOL_CAPABILITY"
    [XE "MAV_PROTOCOL_CAPABILITY_MISSION_FLOAT" (Some 1) [];
     XE "MAV_PROTOCOL_CAPABILITY_PARAM_FLOAT" (Some 2) [];
     XE "MAV_PROTOCOL_CAPABILITY_MISSION_INT" (Some 4) [];
     XE "MAV_PROTOCOL_CAPABILITY_COMMAND_INT" (Some 8) [];
     XE "MAV_PROTOCOL_CAPABILITY_PARAM_UNION" (Some 16) [];
     XE "MAV_PROTOCOL_CAPABILITY_FTP" (Some 32) [];
     XE "MAV_PROTOCOL_CAPABILITY_SET_ATTITUDE_TARGET" (Some 64) [];
     XE "MAV_PROTOCOL_CAPABILITY_SET_POSITION_TARGET_LOCAL_NED" (Some 128) [];
     XE "MAV_PROTOCOL_CAPABILITY_SET_POSITION_TARGET_GLOBAL_INT" (Some 256) [];
     XE "MAV_PROTOCOL_CAPABILITY_TERRAIN" (Some 512) [];
     XE "MAV_PROTOCOL_CAPABILITY_SET_ACTUATOR_TARGET" (Some 1024) [];
     XE "MAV_PROTOCOL_CAPABILITY_FLIGHT_TERMINATION" (Some 2048) [];
     XE "MAV_PROTOCOL_CAPABILITY_COMPASS_CALIBRATION" (Some 4096) []];
  XEnum "MAV_ESTIMATOR_TYPE"
    [XE "MAV_ESTIMATOR_TYPE_NAIVE" (Some 1) [];
     XE "MAV_ESTIMATOR_TYPE_VISION" (Some 2) [];
     XE "MAV_ESTIMATOR_TYPE_VIO" (Some 3) [];
     XE "MAV_ESTIMATOR_TYPE_GPS" (Some 4) [];
     XE "MAV_ESTIMATOR_TYPE_GPS_INS" (Some 5) []];
  XEnum "MAV_BATTERY_TYPE"
    [XE "MAV_BATTERY_TYPE_UNKNOWN" (Some 0) [];
     XE "MAV_BATTERY_TYPE_LIPO" (Some 1) [];
     XE "MAV_BATTERY_TYPE_LIFE" (Some 2) [];
     XE "MAV_BATTERY_TYPE_LION" (Some 3) [];
     XE "MAV_BATTERY_TYPE_NIMH" (Some 4) []];
  XEnum "MAV_BATTERY_FUNCTION"
    [XE "MAV_BATTERY_FUNCTION_UNKNOWN" (Some 0) [];
     XE "MAV_BATTERY_FUNCTION_ALL" (Some 1) [];
     XE "MAV_BATTERY_FUNCTION_PROPULSION" (Some 2) [];
     XE "MAV_BATTERY_FUNCTION_AVIONICS" (Some 3) [];
     XE "MAV_BATTERY_TYPE_PAYLOAD" (Some 4) []];
  XEnum "MAV_VTOL_STATE"
    [XE "MAV_VTOL_STATE_UNDEFINED" (Some 0) [];
     XE "MAV_VTOL_STATE_TRANSITION_TO_FW" (Some 1) [];
     XE "MAV_VTOL_STATE_TRANSITION_TO_MC" (Some 2) [];
     XE "MAV_VTOL_STATE_MC" (Some 3) [];
     XE "MAV_VTOL_STATE_FW" (Some 4) []];
  XEnum "MAV_LANDED_STATE"
    [XE "MAV_LANDED_STATE_UNDEFINED" (Some 0) [];
     XE "MAV_LANDED_STATE_ON_GROUND" (Some 1) [];
     XE "MAV_LANDED_STATE_IN_AIR" (Some 2) []];
  XEnum "ADSB_ALTITUDE_TYPE"
    [XE "ADSB_ALTITUDE_TYPE_PRESSURE_QNH" (Some 0) [];
     XE "ADSB_ALTITUDE_TYPE_GEOMETRIC" (Some 1) []];
  XEnum "ADSB_EMITTER_TYPE"
    [XE "ADSB_EMITTER_TYPE_NO_INFO" (Some 0) [];
     XE "ADSB_EMITTER_TYPE_LIGHT" (Some 1) [];
     XE "ADSB_EMITTER_TYPE_SMALL" (Some 2) [];
     XE "ADSB_EMITTER_TYPE_LARGE" (Some 3) [];
     XE "ADSB_EMITTER_TYPE_HIGH_VORTEX_LARGE" (Some 4) [];
     XE "ADSB_EMITTER_TYPE_HEAVY" (Some 5) [];
     XE "ADSB_EMITTER_TYPE_HIGHLY_MANUV" (Some 6) [];
     XE "ADSB_EMITTER_TYPE_ROTOCRAFT" (Some 7) [];
     XE "ADSB_EMITTER_TYPE_UNASSIGNED" (Some 8) [];
     XE "ADSB_EMITTER_TYPE_GLIDER" (Some 9) [];
     XE "ADSB_EMITTER_TYPE_LIGHTER_AIR" (Some 10) [];
     XE "ADSB_EMITTER_TYPE_PARACHUTE" (Some 11) [];
     XE "ADSB_EMITTER_TYPE_ULTRA_LIGHT" (Some 12) [];
     XE "ADSB_EMITTER_TYPE_UNASSIGNED2" (Some 13) [];
     XE "ADSB_EMITTER_TYPE_UAV" (Some 14) [];
     XE "ADSB_EMITTER_TYPE_SPACE" (Some 15) [];
     XE "ADSB_EMITTER_TYPE_UNASSGINED3" (Some 16) [];
     XE "ADSB_EMITTER_TYPE_EMERGENCY_SURFACE" (Some 17) [];
     XE "ADSB_EMITTER_TYPE_SERVICE_SURFACE" (Some 18) [];
     XE "ADSB_EMITTER_TYPE_POINT_OBSTACLE" (Some 19) []];
  XEnum "ADSB_FLAGS"
    [XE "ADSB_FLAGS_VALID_COORDS" (Some 1) [];
     XE "ADSB_FLAGS_VALID_ALTITUDE" (Some 2) [];
     XE "ADSB_FLAGS_VALID_HEADING" (Some 4) [];
     XE "ADSB_FLAGS_VALID_VELOCITY" (Some 8) [];
     XE "ADSB_FLAGS_VALID_CALLSIGN" (Some 16) [];
     XE "ADSB_FLAGS_VALID_SQUAWK" (Some 32) [];
     XE "ADSB_FLAGS_SIMULATED" (Some 64) []]
].

(** The statements after enums = {}; mavlink_utils/HC_dialect.py:268-2030. *)
Definition hc_py_enums : list estmt :=
[
  SEnum "MAV_AUTOPILOT";
  SConst "MAV_AUTOPILOT_GENERIC" 0;
  SEntry "MAV_AUTOPILOT" 0 "MAV_AUTOPILOT_GENERIC";
  SConst "MAV_AUTOPILOT_RESERVED" 1;
  SEntry "MAV_AUTOPILOT" 1 "MAV_AUTOPILOT_RESERVED";
  SConst "MAV_AUTOPILOT_SLUGS" 2;
  SEntry "MAV_AUTOPILOT" 2 "MAV_AUTOPILOT_SLUGS";
  SConst "MAV_AUTOPILOT_ARDUPILOTMEGA" 3;
  SEntry "MAV_AUTOPILOT" 3 "MAV_AUTOPILOT_ARDUPILOTMEGA";
  SConst "MAV_AUTOPILOT_OPENPILOT" 4;
  SEntry "MAV_AUTOPILOT" 4 "MAV_AUTOPILOT_OPENPILOT";
  SConst "MAV_AUTOPILOT_GENERIC_WAYPOINTS_ONLY" 5;
  SEntry "MAV_AUTOPILOT" 5 "MAV_AUTOPILOT_GENERIC_WAYPOINTS_ONLY";
  SConst "MAV_AUTOPILOT_GENERIC_WAYPOINTS_AND_SIMPLE_NAVIGATION_ONLY" 6;
  SEntry "MAV_AUTOPILOT" 6 "MAV_AUTOPILOT_GENERIC_WAYPOINTS_AND_SIMPLE_NAVIGATION_ONLY";
  SConst "MAV_AUTOPILOT_GENERIC_MISSION_FULL" 7;
  SEntry "MAV_AUTOPILOT" 7 "MAV_AUTOPILOT_GENERIC_MISSION_FULL";
  SConst "MAV_AUTOPILOT_INVALID" 8;
  SEntry "MAV_AUTOPILOT" 8 "MAV_AUTOPILOT_INVALID";
  SConst "MAV_AUTOPILOT_PPZ" 9;
  SEntry "MAV_AUTOPILOT" 9 "MAV_AUTOPILOT_PPZ";
  SConst "MAV_AUTOPILOT_UDB" 10;
  SEntry "MAV_AUTOPILOT" 10 "MAV_AUTOPILOT_UDB";
  SConst "MAV_AUTOPILOT_FP" 11;
  SEntry "MAV_AUTOPILOT" 11 "MAV_AUTOPILOT_FP";
  SConst "MAV_AUTOPILOT_PX4" 12;
  SEntry "MAV_AUTOPILOT" 12 "MAV_AUTOPILOT_PX4";
  SConst "MAV_AUTOPILOT_SMACCMPILOT" 13;
  SEntry "MAV_AUTOPILOT" 13 "MAV_AUTOPILOT_SMACCMPILOT";
  SConst "MAV_AUTOPILOT_AUTOQUAD" 14;
  SEntry "MAV_AUTOPILOT" 14 "MAV_AUTOPILOT_AUTOQUAD";
  SConst "MAV_AUTOPILOT_ARMAZILA" 15;
  SEntry "MAV_AUTOPILOT" 15 "MAV_AUTOPILOT_ARMAZILA";
  SConst "MAV_AUTOPILOT_AEROB" 16;
  SEntry "MAV_AUTOPILOT" 16 "MAV_AUTOPILOT_AEROB";
  SConst "MAV_AUTOPILOT_ASLUAV" 17;
  SEntry "MAV_AUTOPILOT" 17 "MAV_AUTOPILOT_ASLUAV";
  SConst "MAV_AUTOPILOT_ENUM_END" 18;
  SEntry "MAV_AUTOPILOT" 18 "MAV_AUTOPILOT_ENUM_END";
  SEnum "MAV_TYPE";
  SConst "MAV_TYPE_GENERIC" 0;
  SEntry "MAV_TYPE" 0 "MAV_TYPE_GENERIC";
  SConst "MAV_TYPE_FIXED_WING" 1;
  SEntry "MAV_TYPE" 1 "MAV_TYPE_FIXED_WING";
  SConst "MAV_TYPE_QUADROTOR" 2;
  SEntry "MAV_TYPE" 2 "MAV_TYPE_QUADROTOR";
  SConst "MAV_TYPE_COAXIAL" 3;
  SEntry "MAV_TYPE" 3 "MAV_TYPE_COAXIAL";
  SConst "MAV_TYPE_HELICOPTER" 4;
  SEntry "MAV_TYPE" 4 "MAV_TYPE_HELICOPTER";
  SConst "MAV_TYPE_ANTENNA_TRACKER" 5;
  SEntry "MAV_TYPE" 5 "MAV_TYPE_ANTENNA_TRACKER";
  SConst "MAV_TYPE_GCS" 6;
  SEntry "MAV_TYPE" 6 "MAV_TYPE_GCS";
  SConst "MAV_TYPE_AIRSHIP" 7;
  SEntry "MAV_TYPE" 7 "MAV_TYPE_AIRSHIP";
  SConst "MAV_TYPE_FREE_BALLOON" 8;
  SEntry "MAV_TYPE" 8 "MAV_TYPE_FREE_BALLOON";
  SConst "MAV_TYPE_ROCKET" 9;
  SEntry "MAV_TYPE" 9 "MAV_TYPE_ROCKET";
  SConst "MAV_TYPE_GROUND_ROVER" 10;
  SEntry "MAV_TYPE" 10 "MAV_TYPE_GROUND_ROVER";
  SConst "MAV_TYPE_SURFACE_BOAT" 11;
  SEntry "MAV_TYPE" 11 "MAV_TYPE_SURFACE_BOAT";
  SConst "MAV_TYPE_SUBMARINE" 12;
  SEntry "MAV_TYPE" 12 "MAV_TYPE_SUBMARINE";
  SConst "MAV_TYPE_HEXAROTOR" 13;
  SEntry "MAV_TYPE" 13 "MAV_TYPE_HEXAROTOR";
  SConst "MAV_TYPE_OCTOROTOR" 14;
  SEntry "MAV_TYPE" 14 "MAV_TYPE_OCTOROTOR";
  SConst "MAV_TYPE_TRICOPTER" 15;
  SEntry "MAV_TYPE" 15 "MAV_TYPE_TRICOPTER";
  SConst "MAV_TYPE_FLAPPING_WING" 16;
  SEntry "MAV_TYPE" 16 "MAV_TYPE_FLAPPING_WING";
  SConst "MAV_TYPE_KITE" 17;
  SEntry "MAV_TYPE" 17 "MAV_TYPE_KITE";
  SConst "MAV_TYPE_ONBOARD_CONTROLLER" 18;
  SEntry "MAV_TYPE" 18 "MAV_TYPE_ONBOARD_CONTROLLER";
  SConst "MAV_TYPE_VTOL_DUOROTOR" 19;
  SEntry "MAV_TYPE" 19 "MAV_TYPE_VTOL_DUOROTOR";
  SConst "MAV_TYPE_VTOL_QUADROTOR" 20;
  SEntry "MAV_TYPE" 20 "MAV_TYPE_VTOL_QUADROTOR";
  SConst "MAV_TYPE_VTOL_TILTROTOR" 21;
  SEntry "MAV_TYPE" 21 "MAV_TYPE_VTOL_TILTROTOR";
  SConst "MAV_TYPE_VTOL_RESERVED2" 22;
  SEntry "MAV_TYPE" 22 "MAV_TYPE_VTOL_RESERVED2";
  SConst "MAV_TYPE_VTOL_RESERVED3" 23;
  SEntry "MAV_TYPE" 23 "MAV_TYPE_VTOL_RESERVED3";
  SConst "MAV_TYPE_VTOL_RESERVED4" 24;
  SEntry "MAV_TYPE" 24 "MAV_TYPE_VTOL_RESERVED4";
  SConst "MAV_TYPE_VTOL_RESERVED5" 25;
  SEntry "MAV_TYPE" 25 "MAV_TYPE_VTOL_RESERVED5";
  SConst "MAV_TYPE_GIMBAL" 26;
  SEntry "MAV_TYPE" 26 "MAV_TYPE_GIMBAL";
  SConst "MAV_TYPE_ADSB" 27;
  SEntry "MAV_TYPE" 27 "MAV_TYPE_ADSB";
  SConst "MAV_TYPE_ENUM_END" 28;
  SEntry "MAV_TYPE" 28 "MAV_TYPE_ENUM_END";
  SEnum "FIRMWARE_VERSION_TYPE";
  SConst "FIRMWARE_VERSION_TYPE_DEV" 0;
  SEntry "FIRMWARE_VERSION_TYPE" 0 "FIRMWARE_VERSION_TYPE_DEV";
  SConst "FIRMWARE_VERSION_TYPE_ALPHA" 64;
  SEntry "FIRMWARE_VERSION_TYPE" 64 "FIRMWARE_VERSION_TYPE_ALPHA";
  SConst "FIRMWARE_VERSION_TYPE_BETA" 128;
  SEntry "FIRMWARE_VERSION_TYPE" 128 "FIRMWARE_VERSION_TYPE_BETA";
  SConst "FIRMWARE_VERSION_TYPE_RC" 192;
  SEntry "FIRMWARE_VERSION_TYPE" 192 "FIRMWARE_VERSION_TYPE_RC";
  SConst "FIRMWARE_VERSION_TYPE_OFFICIAL" 255;
  SEntry "FIRMWARE_VERSION_TYPE" 255 "FIRMWARE_VERSION_TYPE_OFFICIAL";
  SConst "FIRMWARE_VERSION_TYPE_ENUM_END" 256;
  SEntry "FIRMWARE_VERSION_TYPE" 256 "FIRMWARE_VERSION_TYPE_ENUM_END";
  SEnum "MAV_MODE_FLAG";
  SConst "MAV_MODE_FLAG_CUSTOM_MODE_ENABLED" 1;
  SEntry "MAV_MODE_FLAG" 1 "MAV_MODE_FLAG_CUSTOM_MODE_ENABLED";
  SConst "MAV_MODE_FLAG_TEST_ENABLED" 2;
  SEntry "MAV_MODE_FLAG" 2 "MAV_MODE_FLAG_TEST_ENABLED";
  SConst "MAV_MODE_FLAG_AUTO_ENABLED" 4;
  SEntry "MAV_MODE_FLAG" 4 "MAV_MODE_FLAG_AUTO_ENABLED";
  SConst "MAV_MODE_FLAG_GUIDED_ENABLED" 8;
  SEntry "MAV_MODE_FLAG" 8 "MAV_MODE_FLAG_GUIDED_ENABLED";
  SConst "MAV_MODE_FLAG_STABILIZE_ENABLED" 16;
  SEntry "MAV_MODE_FLAG" 16 "MAV_MODE_FLAG_STABILIZE_ENABLED";
  SConst "MAV_MODE_FLAG_HIL_ENABLED" 32;
  SEntry "MAV_MODE_FLAG" 32 "MAV_MODE_FLAG_HIL_ENABLED";
  SConst "MAV_MODE_FLAG_MANUAL_INPUT_ENABLED" 64;
  SEntry "MAV_MODE_FLAG" 64 "MAV_MODE_FLAG_MANUAL_INPUT_ENABLED";
  SConst "MAV_MODE_FLAG_SAFETY_ARMED" 128;
  SEntry "MAV_MODE_FLAG" 128 "MAV_MODE_FLAG_SAFETY_ARMED";
  SConst "MAV_MODE_FLAG_ENUM_END" 129;
  SEntry "MAV_MODE_FLAG" 129 "MAV_MODE_FLAG_ENUM_END";
  SEnum "MAV_MODE_FLAG_DECODE_POSITION";
  SConst "MAV_MODE_FLAG_DECODE_POSITION_CUSTOM_MODE" 1;
  SEntry "MAV_MODE_FLAG_DECODE_POSITION" 1 "MAV_MODE_FLAG_DECODE_POSITION_CUSTOM_MODE";
  SConst "MAV_MODE_FLAG_DECODE_POSITION_TEST" 2;
  SEntry "MAV_MODE_FLAG_DECODE_POSITION" 2 "MAV_MODE_FLAG_DECODE_POSITION_TEST";
  SConst "MAV_MODE_FLAG_DECODE_POSITION_AUTO" 4;
  SEntry "MAV_MODE_FLAG_DECODE_POSITION" 4 "MAV_MODE_FLAG_DECODE_POSITION_AUTO";
  SConst "MAV_MODE_FLAG_DECODE_POSITION_GUIDED" 8;
  SEntry "MAV_MODE_FLAG_DECODE_POSITION" 8 "MAV_MODE_FLAG_DECODE_POSITION_GUIDED";
  SConst "MAV_MODE_FLAG_DECODE_POSITION_STABILIZE" 16;
  SEntry "MAV_MODE_FLAG_DECODE_POSITION" 16 "MAV_MODE_FLAG_DECODE_POSITION_STABILIZE";
  SConst "MAV_MODE_FLAG_DECODE_POSITION_HIL" 32;
  SEntry "MAV_MODE_FLAG_DECODE_POSITION" 32 "MAV_MODE_FLAG_DECODE_POSITION_HIL";
  SConst "MAV_MODE_FLAG_DECODE_POSITION_MANUAL" 64;
  SEntry "MAV_MODE_FLAG_DECODE_POSITION" 64 "MAV_MODE_FLAG_DECODE_POSITION_MANUAL";
  SConst "MAV_MODE_FLAG_DECODE_POSITION_SAFETY" 128;
  SEntry "MAV_MODE_FLAG_DECODE_POSITION" 128 "MAV_MODE_FLAG_DECODE_POSITION_SAFETY";
  SConst "MAV_MODE_FLAG_DECODE_POSITION_ENUM_END" 129;
  SEntry "MAV_MODE_FLAG_DECODE_POSITION" 129 "MAV_MODE_FLAG_DECODE_POSITION_ENUM_END";
  SEnum "MAV_GOTO";
  SConst "MAV_GOTO_DO_HOLD" 0;
  SEntry "MAV_GOTO" 0 "MAV_GOTO_DO_HOLD";
  SConst "MAV_GOTO_DO_CONTINUE" 1;
  SEntry "MAV_GOTO" 1 "MAV_GOTO_DO_CONTINUE";
  SConst "MAV_GOTO_HOLD_AT_CURRENT_POSITION" 2;
  SEntry "MAV_GOTO" 2 "MAV_GOTO_HOLD_AT_CURRENT_POSITION";
  SConst "MAV_GOTO_HOLD_AT_SPECIFIED_POSITION" 3;
  SEntry "MAV_GOTO" 3 "MAV_GOTO_HOLD_AT_SPECIFIED_POSITION";
  SConst "MAV_GOTO_ENUM_END" 4;
  SEntry "MAV_GOTO" 4 "MAV_GOTO_ENUM_END";
  SEnum "MAV_MODE";
  SConst "MAV_MODE_PREFLIGHT" 0;
  SEntry "MAV_MODE" 0 "MAV_MODE_PREFLIGHT";
  SConst "MAV_MODE_STOP" 32;
  SEntry "MAV_MODE" 32 "MAV_MODE_STOP";
  SConst "MAV_MODE_MANUAL_DISARMED" 64;
  SEntry "MAV_MODE" 64 "MAV_MODE_MANUAL_DISARMED";
  SConst "MAV_MODE_TEST_DISARMED" 66;
  SEntry "MAV_MODE" 66 "MAV_MODE_TEST_DISARMED";
  SConst "MAV_MODE_STABILIZE_DISARMED" 80;
  SEntry "MAV_MODE" 80 "MAV_MODE_STABILIZE_DISARMED";
  SConst "MAV_MODE_GUIDED_DISARMED" 88;
  SEntry "MAV_MODE" 88 "MAV_MODE_GUIDED_DISARMED";
  SConst "MAV_MODE_AUTO_DISARMED" 92;
  SEntry "MAV_MODE" 92 "MAV_MODE_AUTO_DISARMED";
  SConst "MAV_MODE_MANUAL_ARMED" 192;
  SEntry "MAV_MODE" 192 "MAV_MODE_MANUAL_ARMED";
  SConst "MAV_MODE_TEST_ARMED" 194;
  SEntry "MAV_MODE" 194 "MAV_MODE_TEST_ARMED";
  SConst "MAV_MODE_STABILIZE_ARMED" 208;
  SEntry "MAV_MODE" 208 "MAV_MODE_STABILIZE_ARMED";
  SConst "MAV_MODE_GUIDED_ARMED" 216;
  SEntry "MAV_MODE" 216 "MAV_MODE_GUIDED_ARMED";
  SConst "MAV_MODE_AUTO_ARMED" 220;
  SEntry "MAV_MODE" 220 "MAV_MODE_AUTO_ARMED";
  SConst "MAV_MODE_ENUM_END" 221;
  SEntry "MAV_MODE" 221 "MAV_MODE_ENUM_END";
  SEnum "MAV_STATE";
  SConst "MAV_STATE_UNINIT" 0;
  SEntry "MAV_STATE" 0 "MAV_STATE_UNINIT";
  SConst "MAV_STATE_BOOT" 1;
  SEntry "MAV_STATE" 1 "MAV_STATE_BOOT";
  SConst "MAV_STATE_CALIBRATING" 2;
  SEntry "MAV_STATE" 2 "MAV_STATE_CALIBRATING";
  SConst "MAV_STATE_STANDBY" 3;
  SEntry "MAV_STATE" 3 "MAV_STATE_STANDBY";
  SConst "MAV_STATE_ACTIVE" 4;
  SEntry "MAV_STATE" 4 "MAV_STATE_ACTIVE";
  SConst "MAV_STATE_CRITICAL" 5;
  SEntry "MAV_STATE" 5 "MAV_STATE_CRITICAL";
  SConst "MAV_STATE_EMERGENCY" 6;
  SEntry "MAV_STATE" 6 "MAV_STATE_EMERGENCY";
  SConst "MAV_STATE_POWEROFF" 7;
  SEntry "MAV_STATE" 7 "MAV_STATE_POWEROFF";
  SConst "MAV_STATE_ENUM_END" 8;
  SEntry "MAV_STATE" 8 "MAV_STATE_ENUM_END";
  SEnum "MAV_COMPONENT";
  SConst "MAV_COMP_ID_ALL" 0;
  SEntry "MAV_COMPONENT" 0 "MAV_COMP_ID_ALL";
  SConst "MAV_COMP_ID_CAMERA" 100;
  SEntry "MAV_COMPONENT" 100 "MAV_COMP_ID_CAMERA";
  SConst "MAV_COMP_ID_SERVO1" 140;
  SEntry "MAV_COMPONENT" 140 "MAV_COMP_ID_SERVO1";
  SConst "MAV_COMP_ID_SERVO2" 141;
  SEntry "MAV_COMPONENT" 141 "MAV_COMP_ID_SERVO2";
  SConst "MAV_COMP_ID_SERVO3" 142;
  SEntry "MAV_COMPONENT" 142 "MAV_COMP_ID_SERVO3";
  SConst "MAV_COMP_ID_SERVO4" 143;
  SEntry "MAV_COMPONENT" 143 "MAV_COMP_ID_SERVO4";
  SConst "MAV_COMP_ID_SERVO5" 144;
  SEntry "MAV_COMPONENT" 144 "MAV_COMP_ID_SERVO5";
  SConst "MAV_COMP_ID_SERVO6" 145;
  SEntry "MAV_COMPONENT" 145 "MAV_COMP_ID_SERVO6";
  SConst "MAV_COMP_ID_SERVO7" 146;
  SEntry "MAV_COMPONENT" 146 "MAV_COMP_ID_SERVO7";
  SConst "MAV_COMP_ID_SERVO8" 147;
  SEntry "MAV_COMPONENT" 147 "MAV_COMP_ID_SERVO8";
  SConst "MAV_COMP_ID_SERVO9" 148;
  SEntry "MAV_COMPONENT" 148 "MAV_COMP_ID_SERVO9";
  SConst "MAV_COMP_ID_SERVO10" 149;
  SEntry "MAV_COMPONENT" 149 "MAV_COMP_ID_SERVO10";
  SConst "MAV_COMP_ID_SERVO11" 150;
  SEntry "MAV_COMPONENT" 150 "MAV_COMP_ID_SERVO11";
  SConst "MAV_COMP_ID_SERVO12" 151;
  SEntry "MAV_COMPONENT" 151 "MAV_COMP_ID_SERVO12";
  SConst "MAV_COMP_ID_SERVO13" 152;
  SEntry "MAV_COMPONENT" 152 "MAV_COMP_ID_SERVO13";
  SConst "MAV_COMP_ID_SERVO14" 153;
  SEntry "MAV_COMPONENT" 153 "MAV_COMP_ID_SERVO14";
  SConst "MAV_COMP_ID_GIMBAL" 154;
  SEntry "MAV_COMPONENT" 154 "MAV_COMP_ID_GIMBAL";
  SConst "MAV_COMP_ID_LOG" 155;
  SEntry "MAV_COMPONENT" 155 "MAV_COMP_ID_LOG";
  SConst "MAV_COMP_ID_ADSB" 156;
  SEntry "MAV_COMPONENT" 156 "MAV_COMP_ID_ADSB";
  SConst "MAV_COMP_ID_MAPPER" 180;
  SEntry "MAV_COMPONENT" 180 "MAV_COMP_ID_MAPPER";
  SConst "MAV_COMP_ID_MISSIONPLANNER" 190;
  SEntry "MAV_COMPONENT" 190 "MAV_COMP_ID_MISSIONPLANNER";
  SConst "MAV_COMP_ID_PATHPLANNER" 195;
  SEntry "MAV_COMPONENT" 195 "MAV_COMP_ID_PATHPLANNER";
  SConst "MAV_COMP_ID_IMU" 200;
  SEntry "MAV_COMPONENT" 200 "MAV_COMP_ID_IMU";
  SConst "MAV_COMP_ID_IMU_2" 201;
  SEntry "MAV_COMPONENT" 201 "MAV_COMP_ID_IMU_2";
  SConst "MAV_COMP_ID_IMU_3" 202;
  SEntry "MAV_COMPONENT" 202 "MAV_COMP_ID_IMU_3";
  SConst "MAV_COMP_ID_GPS" 220;
  SEntry "MAV_COMPONENT" 220 "MAV_COMP_ID_GPS";
  SConst "MAV_COMP_ID_UDP_BRIDGE" 240;
  SEntry "MAV_COMPONENT" 240 "MAV_COMP_ID_UDP_BRIDGE";
  SConst "MAV_COMP_ID_UART_BRIDGE" 241;
  SEntry "MAV_COMPONENT" 241 "MAV_COMP_ID_UART_BRIDGE";
  SConst "MAV_COMP_ID_SYSTEM_CONTROL" 250;
  SEntry "MAV_COMPONENT" 250 "MAV_COMP_ID_SYSTEM_CONTROL";
  SConst "MAV_COMPONENT_ENUM_END" 251;
  SEntry "MAV_COMPONENT" 251 "MAV_COMPONENT_ENUM_END";
  SEnum "MAV_SYS_STATUS_SENSOR";
  SConst "MAV_SYS_STATUS_SENSOR_3D_GYRO" 1;
  SEntry "MAV_SYS_STATUS_SENSOR" 1 "MAV_SYS_STATUS_SENSOR_3D_GYRO";
  SConst "MAV_SYS_STATUS_SENSOR_3D_ACCEL" 2;
  SEntry "MAV_SYS_STATUS_SENSOR" 2 "MAV_SYS_STATUS_SENSOR_3D_ACCEL";
  SConst "MAV_SYS_STATUS_SENSOR_3D_MAG" 4;
  SEntry "MAV_SYS_STATUS_SENSOR" 4 "MAV_SYS_STATUS_SENSOR_3D_MAG";
  SConst "MAV_SYS_STATUS_SENSOR_ABSOLUTE_PRESSURE" 8;
  SEntry "MAV_SYS_STATUS_SENSOR" 8 "MAV_SYS_STATUS_SENSOR_ABSOLUTE_PRESSURE";
  SConst "MAV_SYS_STATUS_SENSOR_DIFFERENTIAL_PRESSURE" 16;
  SEntry "MAV_SYS_STATUS_SENSOR" 16 "MAV_SYS_STATUS_SENSOR_DIFFERENTIAL_PRESSURE";
  SConst "MAV_SYS_STATUS_SENSOR_GPS" 32;
  SEntry "MAV_SYS_STATUS_SENSOR" 32 "MAV_SYS_STATUS_SENSOR_GPS";
  SConst "MAV_SYS_STATUS_SENSOR_OPTICAL_FLOW" 64;
  SEntry "MAV_SYS_STATUS_SENSOR" 64 "MAV_SYS_STATUS_SENSOR_OPTICAL_FLOW";
  SConst "MAV_SYS_STATUS_SENSOR_VISION_POSITION" 128;
  SEntry "MAV_SYS_STATUS_SENSOR" 128 "MAV_SYS_STATUS_SENSOR_VISION_POSITION";
  SConst "MAV_SYS_STATUS_SENSOR_LASER_POSITION" 256;
  SEntry "MAV_SYS_STATUS_SENSOR" 256 "MAV_SYS_STATUS_SENSOR_LASER_POSITION";
  SConst "MAV_SYS_STATUS_SENSOR_EXTERNAL_GROUND_TRUTH" 512;
  SEntry "MAV_SYS_STATUS_SENSOR" 512 "MAV_SYS_STATUS_SENSOR_EXTERNAL_GROUND_TRUTH";
  SConst "MAV_SYS_STATUS_SENSOR_ANGULAR_RATE_CONTROL" 1024;
  SEntry "MAV_SYS_STATUS_SENSOR" 1024 "MAV_SYS_STATUS_SENSOR_ANGULAR_RATE_CONTROL";
  SConst "MAV_SYS_STATUS_SENSOR_ATTITUDE_STABILIZATION" 2048;
  SEntry "MAV_SYS_STATUS_SENSOR" 2048 "MAV_SYS_STATUS_SENSOR_ATTITUDE_STABILIZATION";
  SConst "MAV_SYS_STATUS_SENSOR_YAW_POSITION" 4096;
  SEntry "MAV_SYS_STATUS_SENSOR" 4096 "MAV_SYS_STATUS_SENSOR_YAW_POSITION";
  SConst "MAV_SYS_STATUS_SENSOR_Z_ALTITUDE_CONTROL" 8192;
  SEntry "MAV_SYS_STATUS_SENSOR" 8192 "MAV_SYS_STATUS_SENSOR_Z_ALTITUDE_CONTROL";
  SConst "MAV_SYS_STATUS_SENSOR_XY_POSITION_CONTROL" 16384;
  SEntry "MAV_SYS_STATUS_SENSOR" 16384 "MAV_SYS_STATUS_SENSOR_XY_POSITION_CONTROL";
  SConst "MAV_SYS_STATUS_SENSOR_MOTOR_OUTPUTS" 32768;
  SEntry "MAV_SYS_STATUS_SENSOR" 32768 "MAV_SYS_STATUS_SENSOR_MOTOR_OUTPUTS";
  SConst "MAV_SYS_STATUS_SENSOR_RC_RECEIVER" 65536;
  SEntry "MAV_SYS_STATUS_SENSOR" 65536 "MAV_SYS_STATUS_SENSOR_RC_RECEIVER";
  SConst "MAV_SYS_STATUS_SENSOR_3D_GYRO2" 131072;
  SEntry "MAV_SYS_STATUS_SENSOR" 131072 "MAV_SYS_STATUS_SENSOR_3D_GYRO2";
  SConst "MAV_SYS_STATUS_SENSOR_3D_ACCEL2" 262144;
  SEntry "MAV_SYS_STATUS_SENSOR" 262144 "MAV_SYS_STATUS_SENSOR_3D_ACCEL2";
  SConst "MAV_SYS_STATUS_SENSOR_3D_MAG2" 524288;
  SEntry "MAV_SYS_STATUS_SENSOR" 524288 "MAV_SYS_STATUS_SENSOR_3D_MAG2";
  SConst "MAV_SYS_STATUS_GEOFENCE" 1048576;
  SEntry "MAV_SYS_STATUS_SENSOR" 1048576 "MAV_SYS_STATUS_GEOFENCE";
  SConst "MAV_SYS_STATUS_AHRS" 2097152;
  SEntry "MAV_SYS_STATUS_SENSOR" 2097152 "MAV_SYS_STATUS_AHRS";
  SConst "MAV_SYS_STATUS_TERRAIN" 4194304;
  SEntry "MAV_SYS_STATUS_SENSOR" 4194304 "MAV_SYS_STATUS_TERRAIN";
  SConst "MAV_SYS_STATUS_SENSOR_ENUM_END" 4194305;
  SEntry "MAV_SYS_STATUS_SENSOR" 4194305 "MAV_SYS_STATUS_SENSOR_ENUM_END";
  SEnum "MAV_FRAME";
  SConst "MAV_FRAME_GLOBAL" 0;
  SEntry "MAV_FRAME" 0 "MAV_FRAME_GLOBAL";
  SConst "MAV_FRAME_LOCAL_NED" 1;
  SEntry "MAV_FRAME" 1 "MAV_FRAME_LOCAL_NED";
  SConst "MAV_FRAME_MISSION" 2;
  SEntry "MAV_FRAME" 2 "MAV_FRAME_MISSION";
  SConst "MAV_FRAME_GLOBAL_RELATIVE_ALT" 3;
  SEntry "MAV_FRAME" 3 "MAV_FRAME_GLOBAL_RELATIVE_ALT";
  SConst "MAV_FRAME_LOCAL_ENU" 4;
  SEntry "MAV_FRAME" 4 "MAV_FRAME_LOCAL_ENU";
  SConst "MAV_FRAME_GLOBAL_INT" 5;
  SEntry "MAV_FRAME" 5 "MAV_FRAME_GLOBAL_INT";
  SConst "MAV_FRAME_GLOBAL_RELATIVE_ALT_INT" 6;
  SEntry "MAV_FRAME" 6 "MAV_FRAME_GLOBAL_RELATIVE_ALT_INT";
  SConst "MAV_FRAME_LOCAL_OFFSET_NED" 7;
  SEntry "MAV_FRAME" 7 "MAV_FRAME_LOCAL_OFFSET_NED";
  SConst "MAV_FRAME_BODY_NED" 8;
  SEntry "MAV_FRAME" 8 "MAV_FRAME_BODY_NED";
  SConst "MAV_FRAME_BODY_OFFSET_NED" 9;
  SEntry "MAV_FRAME" 9 "MAV_FRAME_BODY_OFFSET_NED";
  SConst "MAV_FRAME_GLOBAL_TERRAIN_ALT" 10;
  SEntry "MAV_FRAME" 10 "MAV_FRAME_GLOBAL_TERRAIN_ALT";
  SConst "MAV_FRAME_GLOBAL_TERRAIN_ALT_INT" 11;
  SEntry "MAV_FRAME" 11 "MAV_FRAME_GLOBAL_TERRAIN_ALT_INT";
  SConst "MAV_FRAME_HCMISSION" 12;
  SEntry "MAV_FRAME" 12 "MAV_FRAME_HCMISSION";
  SConst "MAV_FRAME_ENUM_END" 13;
  SEntry "MAV_FRAME" 13 "MAV_FRAME_ENUM_END";
  SEnum "MAVLINK_DATA_STREAM_TYPE";
  SConst "MAVLINK_DATA_STREAM_IMG_JPEG" 1;
  SEntry "MAVLINK_DATA_STREAM_TYPE" 1 "MAVLINK_DATA_STREAM_IMG_JPEG";
  SConst "MAVLINK_DATA_STREAM_IMG_BMP" 2;
  SEntry "MAVLINK_DATA_STREAM_TYPE" 2 "MAVLINK_DATA_STREAM_IMG_BMP";
  SConst "MAVLINK_DATA_STREAM_IMG_RAW8U" 3;
  SEntry "MAVLINK_DATA_STREAM_TYPE" 3 "MAVLINK_DATA_STREAM_IMG_RAW8U";
  SConst "MAVLINK_DATA_STREAM_IMG_RAW32U" 4;
  SEntry "MAVLINK_DATA_STREAM_TYPE" 4 "MAVLINK_DATA_STREAM_IMG_RAW32U";
  SConst "MAVLINK_DATA_STREAM_IMG_PGM" 5;
  SEntry "MAVLINK_DATA_STREAM_TYPE" 5 "MAVLINK_DATA_STREAM_IMG_PGM";
  SConst "MAVLINK_DATA_STREAM_IMG_PNG" 6;
  SEntry "MAVLINK_DATA_STREAM_TYPE" 6 "MAVLINK_DATA_STREAM_IMG_PNG";
  SConst "MAVLINK_DATA_STREAM_TYPE_ENUM_END" 7;
  SEntry "MAVLINK_DATA_STREAM_TYPE" 7 "MAVLINK_DATA_STREAM_TYPE_ENUM_END";
  SEnum "FENCE_ACTION";
  SConst "FENCE_ACTION_NONE" 0;
  SEntry "FENCE_ACTION" 0 "FENCE_ACTION_NONE";
  SConst "FENCE_ACTION_GUIDED" 1;
  SEntry "FENCE_ACTION" 1 "FENCE_ACTION_GUIDED";
  SConst "FENCE_ACTION_REPORT" 2;
  SEntry "FENCE_ACTION" 2 "FENCE_ACTION_REPORT";
  SConst "FENCE_ACTION_GUIDED_THR_PASS" 3;
  SEntry "FENCE_ACTION" 3 "FENCE_ACTION_GUIDED_THR_PASS";
  SConst "FENCE_ACTION_ENUM_END" 4;
  SEntry "FENCE_ACTION" 4 "FENCE_ACTION_ENUM_END";
  SEnum "FENCE_BREACH";
  SConst "FENCE_BREACH_NONE" 0;
  SEntry "FENCE_BREACH" 0 "FENCE_BREACH_NONE";
  SConst "FENCE_BREACH_MINALT" 1;
  SEntry "FENCE_BREACH" 1 "FENCE_BREACH_MINALT";
  SConst "FENCE_BREACH_MAXALT" 2;
  SEntry "FENCE_BREACH" 2 "FENCE_BREACH_MAXALT";
  SConst "FENCE_BREACH_BOUNDARY" 3;
  SEntry "FENCE_BREACH" 3 "FENCE_BREACH_BOUNDARY";
  SConst "FENCE_BREACH_ENUM_END" 4;
  SEntry "FENCE_BREACH" 4 "FENCE_BREACH_ENUM_END";
  SEnum "MAV_MOUNT_MODE";
  SConst "MAV_MOUNT_MODE_RETRACT" 0;
  SEntry "MAV_MOUNT_MODE" 0 "MAV_MOUNT_MODE_RETRACT";
  SConst "MAV_MOUNT_MODE_NEUTRAL" 1;
  SEntry "MAV_MOUNT_MODE" 1 "MAV_MOUNT_MODE_NEUTRAL";
  SConst "MAV_MOUNT_MODE_MAVLINK_TARGETING" 2;
  SEntry "MAV_MOUNT_MODE" 2 "MAV_MOUNT_MODE_MAVLINK_TARGETING";
  SConst "MAV_MOUNT_MODE_RC_TARGETING" 3;
  SEntry "MAV_MOUNT_MODE" 3 "MAV_MOUNT_MODE_RC_TARGETING";
  SConst "MAV_MOUNT_MODE_GPS_POINT" 4;
  SEntry "MAV_MOUNT_MODE" 4 "MAV_MOUNT_MODE_GPS_POINT";
  SConst "MAV_MOUNT_MODE_ENUM_END" 5;
  SEntry "MAV_MOUNT_MODE" 5 "MAV_MOUNT_MODE_ENUM_END";
  SEnum "MAV_CMD";
  SConst "MAV_CMD_NAV_WAYPOINT" 16;
  SEntry "MAV_CMD" 16 "MAV_CMD_NAV_WAYPOINT";
  SParam "MAV_CMD" 16 1;
  SParam "MAV_CMD" 16 2;
  SParam "MAV_CMD" 16 3;
  SParam "MAV_CMD" 16 4;
  SParam "MAV_CMD" 16 5;
  SParam "MAV_CMD" 16 6;
  SParam "MAV_CMD" 16 7;
  SConst "MAV_CMD_NAV_LOITER_UNLIM" 17;
  SEntry "MAV_CMD" 17 "MAV_CMD_NAV_LOITER_UNLIM";
  SParam "MAV_CMD" 17 1;
  SParam "MAV_CMD" 17 2;
  SParam "MAV_CMD" 17 3;
  SParam "MAV_CMD" 17 4;
  SParam "MAV_CMD" 17 5;
  SParam "MAV_CMD" 17 6;
  SParam "MAV_CMD" 17 7;
  SConst "MAV_CMD_NAV_LOITER_TURNS" 18;
  SEntry "MAV_CMD" 18 "MAV_CMD_NAV_LOITER_TURNS";
  SParam "MAV_CMD" 18 1;
  SParam "MAV_CMD" 18 2;
  SParam "MAV_CMD" 18 3;
  SParam "MAV_CMD" 18 4;
  SParam "MAV_CMD" 18 5;
  SParam "MAV_CMD" 18 6;
  SParam "MAV_CMD" 18 7;
  SConst "MAV_CMD_NAV_LOITER_TIME" 19;
  SEntry "MAV_CMD" 19 "MAV_CMD_NAV_LOITER_TIME";
  SParam "MAV_CMD" 19 1;
  SParam "MAV_CMD" 19 2;
  SParam "MAV_CMD" 19 3;
  SParam "MAV_CMD" 19 4;
  SParam "MAV_CMD" 19 5;
  SParam "MAV_CMD" 19 6;
  SParam "MAV_CMD" 19 7;
  SConst "MAV_CMD_NAV_RETURN_TO_LAUNCH" 20;
  SEntry "MAV_CMD" 20 "MAV_CMD_NAV_RETURN_TO_LAUNCH";
  SParam "MAV_CMD" 20 1;
  SParam "MAV_CMD" 20 2;
  SParam "MAV_CMD" 20 3;
  SParam "MAV_CMD" 20 4;
  SParam "MAV_CMD" 20 5;
  SParam "MAV_CMD" 20 6;
  SParam "MAV_CMD" 20 7;
  SConst "MAV_CMD_NAV_LAND" 21;
  SEntry "MAV_CMD" 21 "MAV_CMD_NAV_LAND";
  SParam "MAV_CMD" 21 1;
  SParam "MAV_CMD" 21 2;
  SParam "MAV_CMD" 21 3;
  SParam "MAV_CMD" 21 4;
  SParam "MAV_CMD" 21 5;
  SParam "MAV_CMD" 21 6;
  SParam "MAV_CMD" 21 7;
  SConst "MAV_CMD_NAV_SAFETY_REGION" 22;
  SEntry "MAV_CMD" 22 "MAV_CMD_NAV_SAFETY_REGION";
  SParam "MAV_CMD" 22 1;
  SParam "MAV_CMD" 22 2;
  SParam "MAV_CMD" 22 3;
  SParam "MAV_CMD" 22 4;
  SParam "MAV_CMD" 22 5;
  SParam "MAV_CMD" 22 6;
  SParam "MAV_CMD" 22 7;
  SConst "MAV_CMD_NAV_LAND_LOCAL" 23;
  SEntry "MAV_CMD" 23 "MAV_CMD_NAV_LAND_LOCAL";
  SParam "MAV_CMD" 23 1;
  SParam "MAV_CMD" 23 2;
  SParam "MAV_CMD" 23 3;
  SParam "MAV_CMD" 23 4;
  SParam "MAV_CMD" 23 5;
  SParam "MAV_CMD" 23 6;
  SParam "MAV_CMD" 23 7;
  SConst "MAV_CMD_NAV_TAKEOFF_LOCAL" 24;
  SEntry "MAV_CMD" 24 "MAV_CMD_NAV_TAKEOFF_LOCAL";
  SParam "MAV_CMD" 24 1;
  SParam "MAV_CMD" 24 2;
  SParam "MAV_CMD" 24 3;
  SParam "MAV_CMD" 24 4;
  SParam "MAV_CMD" 24 5;
  SParam "MAV_CMD" 24 6;
  SParam "MAV_CMD" 24 7;
  SConst "MAV_CMD_NAV_FOLLOW" 25;
  SEntry "MAV_CMD" 25 "MAV_CMD_NAV_FOLLOW";
  SParam "MAV_CMD" 25 1;
  SParam "MAV_CMD" 25 2;
  SParam "MAV_CMD" 25 3;
  SParam "MAV_CMD" 25 4;
  SParam "MAV_CMD" 25 5;
  SParam "MAV_CMD" 25 6;
  SParam "MAV_CMD" 25 7;
  SConst "MAV_CMD_NAV_CONTINUE_AND_CHANGE_ALT" 30;
  SEntry "MAV_CMD" 30 "MAV_CMD_NAV_CONTINUE_AND_CHANGE_ALT";
  SParam "MAV_CMD" 30 1;
  SParam "MAV_CMD" 30 2;
  SParam "MAV_CMD" 30 3;
  SParam "MAV_CMD" 30 4;
  SParam "MAV_CMD" 30 5;
  SParam "MAV_CMD" 30 6;
  SParam "MAV_CMD" 30 7;
  SConst "MAV_CMD_NAV_LOITER_TO_ALT" 31;
  SEntry "MAV_CMD" 31 "MAV_CMD_NAV_LOITER_TO_ALT";
  SParam "MAV_CMD" 31 1;
  SParam "MAV_CMD" 31 2;
  SParam "MAV_CMD" 31 3;
  SParam "MAV_CMD" 31 4;
  SParam "MAV_CMD" 31 5;
  SParam "MAV_CMD" 31 6;
  SParam "MAV_CMD" 31 7;
  SConst "MAV_CMD_NAV_ROI" 80;
  SEntry "MAV_CMD" 80 "MAV_CMD_NAV_ROI";
  SParam "MAV_CMD" 80 1;
  SParam "MAV_CMD" 80 2;
  SParam "MAV_CMD" 80 3;
  SParam "MAV_CMD" 80 4;
  SParam "MAV_CMD" 80 5;
  SParam "MAV_CMD" 80 6;
  SParam "MAV_CMD" 80 7;
  SConst "MAV_CMD_NAV_PATHPLANNING" 81;
  SEntry "MAV_CMD" 81 "MAV_CMD_NAV_PATHPLANNING";
  SParam "MAV_CMD" 81 1;
  SParam "MAV_CMD" 81 2;
  SParam "MAV_CMD" 81 3;
  SParam "MAV_CMD" 81 4;
  SParam "MAV_CMD" 81 5;
  SParam "MAV_CMD" 81 6;
  SParam "MAV_CMD" 81 7;
  SConst "MAV_CMD_NAV_SPLINE_WAYPOINT" 82;
  SEntry "MAV_CMD" 82 "MAV_CMD_NAV_SPLINE_WAYPOINT";
  SParam "MAV_CMD" 82 1;
  SParam "MAV_CMD" 82 2;
  SParam "MAV_CMD" 82 3;
  SParam "MAV_CMD" 82 4;
  SParam "MAV_CMD" 82 5;
  SParam "MAV_CMD" 82 6;
  SParam "MAV_CMD" 82 7;
  SConst "MAV_CMD_NAV_VTOL_TAKEOFF" 84;
  SEntry "MAV_CMD" 84 "MAV_CMD_NAV_VTOL_TAKEOFF";
  SParam "MAV_CMD" 84 1;
  SParam "MAV_CMD" 84 2;
  SParam "MAV_CMD" 84 3;
  SParam "MAV_CMD" 84 4;
  SParam "MAV_CMD" 84 5;
  SParam "MAV_CMD" 84 6;
  SParam "MAV_CMD" 84 7;
  SConst "MAV_CMD_NAV_VTOL_LAND" 85;
  SEntry "MAV_CMD" 85 "MAV_CMD_NAV_VTOL_LAND";
  SParam "MAV_CMD" 85 1;
  SParam "MAV_CMD" 85 2;
  SParam "MAV_CMD" 85 3;
  SParam "MAV_CMD" 85 4;
  SParam "MAV_CMD" 85 5;
  SParam "MAV_CMD" 85 6;
  SParam "MAV_CMD" 85 7;
  SConst "MAV_CMD_NAV_GUIDED_ENABLE" 92;
  SEntry "MAV_CMD" 92 "MAV_CMD_NAV_GUIDED_ENABLE";
  SParam "MAV_CMD" 92 1;
  SParam "MAV_CMD" 92 2;
  SParam "MAV_CMD" 92 3;
  SParam "MAV_CMD" 92 4;
  SParam "MAV_CMD" 92 5;
  SParam "MAV_CMD" 92 6;
  SParam "MAV_CMD" 92 7;
  SConst "MAV_CMD_NAV_LAST" 95;
  SEntry "MAV_CMD" 95 "MAV_CMD_NAV_LAST";
  SParam "MAV_CMD" 95 1;
  SParam "MAV_CMD" 95 2;
  SParam "MAV_CMD" 95 3;
  SParam "MAV_CMD" 95 4;
  SParam "MAV_CMD" 95 5;
  SParam "MAV_CMD" 95 6;
  SParam "MAV_CMD" 95 7;
  SConst "MAV_CMD_CONDITION_DELAY" 112;
  SEntry "MAV_CMD" 112 "MAV_CMD_CONDITION_DELAY";
  SParam "MAV_CMD" 112 1;
  SParam "MAV_CMD" 112 2;
  SParam "MAV_CMD" 112 3;
  SParam "MAV_CMD" 112 4;
  SParam "MAV_CMD" 112 5;
  SParam "MAV_CMD" 112 6;
  SParam "MAV_CMD" 112 7;
  SConst "MAV_CMD_CONDITION_CHANGE_ALT" 113;
  SEntry "MAV_CMD" 113 "MAV_CMD_CONDITION_CHANGE_ALT";
  SParam "MAV_CMD" 113 1;
  SParam "MAV_CMD" 113 2;
  SParam "MAV_CMD" 113 3;
  SParam "MAV_CMD" 113 4;
  SParam "MAV_CMD" 113 5;
  SParam "MAV_CMD" 113 6;
  SParam "MAV_CMD" 113 7;
  SConst "MAV_CMD_CONDITION_DISTANCE" 114;
  SEntry "MAV_CMD" 114 "MAV_CMD_CONDITION_DISTANCE";
  SParam "MAV_CMD" 114 1;
  SParam "MAV_CMD" 114 2;
  SParam "MAV_CMD" 114 3;
  SParam "MAV_CMD" 114 4;
  SParam "MAV_CMD" 114 5;
  SParam "MAV_CMD" 114 6;
  SParam "MAV_CMD" 114 7;
  SConst "MAV_CMD_CONDITION_YAW" 115;
  SEntry "MAV_CMD" 115 "MAV_CMD_CONDITION_YAW";
  SParam "MAV_CMD" 115 1;
  SParam "MAV_CMD" 115 2;
  SParam "MAV_CMD" 115 3;
  SParam "MAV_CMD" 115 4;
  SParam "MAV_CMD" 115 5;
  SParam "MAV_CMD" 115 6;
  SParam "MAV_CMD" 115 7;
  SConst "MAV_CMD_CONDITION_LAST" 159;
  SEntry "MAV_CMD" 159 "MAV_CMD_CONDITION_LAST";
  SParam "MAV_CMD" 159 1;
  SParam "MAV_CMD" 159 2;
  SParam "MAV_CMD" 159 3;
  SParam "MAV_CMD" 159 4;
  SParam "MAV_CMD" 159 5;
  SParam "MAV_CMD" 159 6;
  SParam "MAV_CMD" 159 7;
  SConst "MAV_CMD_DO_SET_MODE" 176;
  SEntry "MAV_CMD" 176 "MAV_CMD_DO_SET_MODE";
  SParam "MAV_CMD" 176 1;
  SParam "MAV_CMD" 176 2;
  SParam "MAV_CMD" 176 3;
  SParam "MAV_CMD" 176 4;
  SParam "MAV_CMD" 176 5;
  SParam "MAV_CMD" 176 6;
  SParam "MAV_CMD" 176 7;
  SConst "MAV_CMD_DO_JUMP" 177;
  SEntry "MAV_CMD" 177 "MAV_CMD_DO_JUMP";
  SParam "MAV_CMD" 177 1;
  SParam "MAV_CMD" 177 2;
  SParam "MAV_CMD" 177 3;
  SParam "MAV_CMD" 177 4;
  SParam "MAV_CMD" 177 5;
  SParam "MAV_CMD" 177 6;
  SParam "MAV_CMD" 177 7;
  SConst "MAV_CMD_DO_CHANGE_SPEED" 178;
  SEntry "MAV_CMD" 178 "MAV_CMD_DO_CHANGE_SPEED";
  SParam "MAV_CMD" 178 1;
  SParam "MAV_CMD" 178 2;
  SParam "MAV_CMD" 178 3;
  SParam "MAV_CMD" 178 4;
  SParam "MAV_CMD" 178 5;
  SParam "MAV_CMD" 178 6;
  SParam "MAV_CMD" 178 7;
  SConst "MAV_CMD_DO_SET_HOME" 179;
  SEntry "MAV_CMD" 179 "MAV_CMD_DO_SET_HOME";
  SParam "MAV_CMD" 179 1;
  SParam "MAV_CMD" 179 2;
  SParam "MAV_CMD" 179 3;
  SParam "MAV_CMD" 179 4;
  SParam "MAV_CMD" 179 5;
  SParam "MAV_CMD" 179 6;
  SParam "MAV_CMD" 179 7;
  SConst "MAV_CMD_DO_SET_PARAMETER" 180;
  SEntry "MAV_CMD" 180 "MAV_CMD_DO_SET_PARAMETER";
  SParam "MAV_CMD" 180 1;
  SParam "MAV_CMD" 180 2;
  SParam "MAV_CMD" 180 3;
  SParam "MAV_CMD" 180 4;
  SParam "MAV_CMD" 180 5;
  SParam "MAV_CMD" 180 6;
  SParam "MAV_CMD" 180 7;
  SConst "MAV_CMD_DO_SET_RELAY" 181;
  SEntry "MAV_CMD" 181 "MAV_CMD_DO_SET_RELAY";
  SParam "MAV_CMD" 181 1;
  SParam "MAV_CMD" 181 2;
  SParam "MAV_CMD" 181 3;
  SParam "MAV_CMD" 181 4;
  SParam "MAV_CMD" 181 5;
  SParam "MAV_CMD" 181 6;
  SParam "MAV_CMD" 181 7;
  SConst "MAV_CMD_DO_REPEAT_RELAY" 182;
  SEntry "MAV_CMD" 182 "MAV_CMD_DO_REPEAT_RELAY";
  SParam "MAV_CMD" 182 1;
  SParam "MAV_CMD" 182 2;
  SParam "MAV_CMD" 182 3;
  SParam "MAV_CMD" 182 4;
  SParam "MAV_CMD" 182 5;
  SParam "MAV_CMD" 182 6;
  SParam "MAV_CMD" 182 7;
  SConst "MAV_CMD_DO_SET_SERVO" 183;
  SEntry "MAV_CMD" 183 "MAV_CMD_DO_SET_SERVO";
  SParam "MAV_CMD" 183 1;
  SParam "MAV_CMD" 183 2;
  SParam "MAV_CMD" 183 3;
  SParam "MAV_CMD" 183 4;
  SParam "MAV_CMD" 183 5;
  SParam "MAV_CMD" 183 6;
  SParam "MAV_CMD" 183 7;
  SConst "MAV_CMD_DO_REPEAT_SERVO" 184;
  SEntry "MAV_CMD" 184 "MAV_CMD_DO_REPEAT_SERVO";
  SParam "MAV_CMD" 184 1;
  SParam "MAV_CMD" 184 2;
  SParam "MAV_CMD" 184 3;
  SParam "MAV_CMD" 184 4;
  SParam "MAV_CMD" 184 5;
  SParam "MAV_CMD" 184 6;
  SParam "MAV_CMD" 184 7;
  SConst "MAV_CMD_DO_FLIGHTTERMINATION" 185;
  SEntry "MAV_CMD" 185 "MAV_CMD_DO_FLIGHTTERMINATION";
  SParam "MAV_CMD" 185 1;
  SParam "MAV_CMD" 185 2;
  SParam "MAV_CMD" 185 3;
  SParam "MAV_CMD" 185 4;
  SParam "MAV_CMD" 185 5;
  SParam "MAV_CMD" 185 6;
  SParam "MAV_CMD" 185 7;
  SConst "MAV_CMD_DO_LAND_START" 189;
  SEntry "MAV_CMD" 189 "MAV_CMD_DO_LAND_START";
  SParam "MAV_CMD" 189 1;
  SParam "MAV_CMD" 189 2;
  SParam "MAV_CMD" 189 3;
  SParam "MAV_CMD" 189 4;
  SParam "MAV_CMD" 189 5;
  SParam "MAV_CMD" 189 6;
  SParam "MAV_CMD" 189 7;
  SConst "MAV_CMD_DO_RALLY_LAND" 190;
  SEntry "MAV_CMD" 190 "MAV_CMD_DO_RALLY_LAND";
  SParam "MAV_CMD" 190 1;
  SParam "MAV_CMD" 190 2;
  SParam "MAV_CMD" 190 3;
  SParam "MAV_CMD" 190 4;
  SParam "MAV_CMD" 190 5;
  SParam "MAV_CMD" 190 6;
  SParam "MAV_CMD" 190 7;
  SConst "MAV_CMD_DO_GO_AROUND" 191;
  SEntry "MAV_CMD" 191 "MAV_CMD_DO_GO_AROUND";
  SParam "MAV_CMD" 191 1;
  SParam "MAV_CMD" 191 2;
  SParam "MAV_CMD" 191 3;
  SParam "MAV_CMD" 191 4;
  SParam "MAV_CMD" 191 5;
  SParam "MAV_CMD" 191 6;
  SParam "MAV_CMD" 191 7;
  SConst "MAV_CMD_DO_CONTROL_VIDEO" 200;
  SEntry "MAV_CMD" 200 "MAV_CMD_DO_CONTROL_VIDEO";
  SParam "MAV_CMD" 200 1;
  SParam "MAV_CMD" 200 2;
  SParam "MAV_CMD" 200 3;
  SParam "MAV_CMD" 200 4;
  SParam "MAV_CMD" 200 5;
  SParam "MAV_CMD" 200 6;
  SParam "MAV_CMD" 200 7;
  SConst "MAV_CMD_DO_SET_ROI" 201;
  SEntry "MAV_CMD" 201 "MAV_CMD_DO_SET_ROI";
  SParam "MAV_CMD" 201 1;
  SParam "MAV_CMD" 201 2;
  SParam "MAV_CMD" 201 3;
  SParam "MAV_CMD" 201 4;
  SParam "MAV_CMD" 201 5;
  SParam "MAV_CMD" 201 6;
  SParam "MAV_CMD" 201 7;
  SConst "MAV_CMD_DO_DIGICAM_CONFIGURE" 202;
  SEntry "MAV_CMD" 202 "MAV_CMD_DO_DIGICAM_CONFIGURE";
  SParam "MAV_CMD" 202 1;
  SParam "MAV_CMD" 202 2;
  SParam "MAV_CMD" 202 3;
  SParam "MAV_CMD" 202 4;
  SParam "MAV_CMD" 202 5;
  SParam "MAV_CMD" 202 6;
  SParam "MAV_CMD" 202 7;
  SConst "MAV_CMD_DO_DIGICAM_CONTROL" 203;
  SEntry "MAV_CMD" 203 "MAV_CMD_DO_DIGICAM_CONTROL";
  SParam "MAV_CMD" 203 1;
  SParam "MAV_CMD" 203 2;
  SParam "MAV_CMD" 203 3;
  SParam "MAV_CMD" 203 4;
  SParam "MAV_CMD" 203 5;
  SParam "MAV_CMD" 203 6;
  SParam "MAV_CMD" 203 7;
  SConst "MAV_CMD_DO_MOUNT_CONFIGURE" 204;
  SEntry "MAV_CMD" 204 "MAV_CMD_DO_MOUNT_CONFIGURE";
  SParam "MAV_CMD" 204 1;
  SParam "MAV_CMD" 204 2;
  SParam "MAV_CMD" 204 3;
  SParam "MAV_CMD" 204 4;
  SParam "MAV_CMD" 204 5;
  SParam "MAV_CMD" 204 6;
  SParam "MAV_CMD" 204 7;
  SConst "MAV_CMD_DO_MOUNT_CONTROL" 205;
  SEntry "MAV_CMD" 205 "MAV_CMD_DO_MOUNT_CONTROL";
  SParam "MAV_CMD" 205 1;
  SParam "MAV_CMD" 205 2;
  SParam "MAV_CMD" 205 3;
  SParam "MAV_CMD" 205 4;
  SParam "MAV_CMD" 205 5;
  SParam "MAV_CMD" 205 6;
  SParam "MAV_CMD" 205 7;
  SConst "MAV_CMD_DO_SET_CAM_TRIGG_DIST" 206;
  SEntry "MAV_CMD" 206 "MAV_CMD_DO_SET_CAM_TRIGG_DIST";
  SParam "MAV_CMD" 206 1;
  SParam "MAV_CMD" 206 2;
  SParam "MAV_CMD" 206 3;
  SParam "MAV_CMD" 206 4;
  SParam "MAV_CMD" 206 5;
  SParam "MAV_CMD" 206 6;
  SParam "MAV_CMD" 206 7;
  SConst "MAV_CMD_DO_FENCE_ENABLE" 207;
  SEntry "MAV_CMD" 207 "MAV_CMD_DO_FENCE_ENABLE";
  SParam "MAV_CMD" 207 1;
  SParam "MAV_CMD" 207 2;
  SParam "MAV_CMD" 207 3;
  SParam "MAV_CMD" 207 4;
  SParam "MAV_CMD" 207 5;
  SParam "MAV_CMD" 207 6;
  SParam "MAV_CMD" 207 7;
  SConst "MAV_CMD_DO_PARACHUTE" 208;
  SEntry "MAV_CMD" 208 "MAV_CMD_DO_PARACHUTE";
  SParam "MAV_CMD" 208 1;
  SParam "MAV_CMD" 208 2;
  SParam "MAV_CMD" 208 3;
  SParam "MAV_CMD" 208 4;
  SParam "MAV_CMD" 208 5;
  SParam "MAV_CMD" 208 6;
  SParam "MAV_CMD" 208 7;
  SConst "MAV_CMD_DO_INVERTED_FLIGHT" 210;
  SEntry "MAV_CMD" 210 "MAV_CMD_DO_INVERTED_FLIGHT";
  SParam "MAV_CMD" 210 1;
  SParam "MAV_CMD" 210 2;
  SParam "MAV_CMD" 210 3;
  SParam "MAV_CMD" 210 4;
  SParam "MAV_CMD" 210 5;
  SParam "MAV_CMD" 210 6;
  SParam "MAV_CMD" 210 7;
  SConst "MAV_CMD_DO_MOUNT_CONTROL_QUAT" 220;
  SEntry "MAV_CMD" 220 "MAV_CMD_DO_MOUNT_CONTROL_QUAT";
  SParam "MAV_CMD" 220 1;
  SParam "MAV_CMD" 220 2;
  SParam "MAV_CMD" 220 3;
  SParam "MAV_CMD" 220 4;
  SParam "MAV_CMD" 220 5;
  SParam "MAV_CMD" 220 6;
  SParam "MAV_CMD" 220 7;
  SConst "MAV_CMD_DO_GUIDED_MASTER" 221;
  SEntry "MAV_CMD" 221 "MAV_CMD_DO_GUIDED_MASTER";
  SParam "MAV_CMD" 221 1;
  SParam "MAV_CMD" 221 2;
  SParam "MAV_CMD" 221 3;
  SParam "MAV_CMD" 221 4;
  SParam "MAV_CMD" 221 5;
  SParam "MAV_CMD" 221 6;
  SParam "MAV_CMD" 221 7;
  SConst "MAV_CMD_DO_GUIDED_LIMITS" 222;
  SEntry "MAV_CMD" 222 "MAV_CMD_DO_GUIDED_LIMITS";
  SParam "MAV_CMD" 222 1;
  SParam "MAV_CMD" 222 2;
  SParam "MAV_CMD" 222 3;
  SParam "MAV_CMD" 222 4;
  SParam "MAV_CMD" 222 5;
  SParam "MAV_CMD" 222 6;
  SParam "MAV_CMD" 222 7;
  SConst "MAV_CMD_DO_LAST" 240;
  SEntry "MAV_CMD" 240 "MAV_CMD_DO_LAST";
  SParam "MAV_CMD" 240 1;
  SParam "MAV_CMD" 240 2;
  SParam "MAV_CMD" 240 3;
  SParam "MAV_CMD" 240 4;
  SParam "MAV_CMD" 240 5;
  SParam "MAV_CMD" 240 6;
  SParam "MAV_CMD" 240 7;
  SConst "MAV_CMD_PREFLIGHT_CALIBRATION" 241;
  SEntry "MAV_CMD" 241 "MAV_CMD_PREFLIGHT_CALIBRATION";
  SParam "MAV_CMD" 241 1;
  SParam "MAV_CMD" 241 2;
  SParam "MAV_CMD" 241 3;
  SParam "MAV_CMD" 241 4;
  SParam "MAV_CMD" 241 5;
  SParam "MAV_CMD" 241 6;
  SParam "MAV_CMD" 241 7;
  SConst "MAV_CMD_PREFLIGHT_SET_SENSOR_OFFSETS" 242;
  SEntry "MAV_CMD" 242 "MAV_CMD_PREFLIGHT_SET_SENSOR_OFFSETS";
  SParam "MAV_CMD" 242 1;
  SParam "MAV_CMD" 242 2;
  SParam "MAV_CMD" 242 3;
  SParam "MAV_CMD" 242 4;
  SParam "MAV_CMD" 242 5;
  SParam "MAV_CMD" 242 6;
  SParam "MAV_CMD" 242 7;
  SConst "MAV_CMD_PREFLIGHT_UAVCAN" 243;
  SEntry "MAV_CMD" 243 "MAV_CMD_PREFLIGHT_UAVCAN";
  SParam "MAV_CMD" 243 1;
  SParam "MAV_CMD" 243 2;
  SParam "MAV_CMD" 243 3;
  SParam "MAV_CMD" 243 4;
  SParam "MAV_CMD" 243 5;
  SParam "MAV_CMD" 243 6;
  SParam "MAV_CMD" 243 7;
  SConst "MAV_CMD_PREFLIGHT_STORAGE" 245;
  SEntry "MAV_CMD" 245 "MAV_CMD_PREFLIGHT_STORAGE";
  SParam "MAV_CMD" 245 1;
  SParam "MAV_CMD" 245 2;
  SParam "MAV_CMD" 245 3;
  SParam "MAV_CMD" 245 4;
  SParam "MAV_CMD" 245 5;
  SParam "MAV_CMD" 245 6;
  SParam "MAV_CMD" 245 7;
  SConst "MAV_CMD_PREFLIGHT_REBOOT_SHUTDOWN" 246;
  SEntry "MAV_CMD" 246 "MAV_CMD_PREFLIGHT_REBOOT_SHUTDOWN";
  SParam "MAV_CMD" 246 1;
  SParam "MAV_CMD" 246 2;
  SParam "MAV_CMD" 246 3;
  SParam "MAV_CMD" 246 4;
  SParam "MAV_CMD" 246 5;
  SParam "MAV_CMD" 246 6;
  SParam "MAV_CMD" 246 7;
  SConst "MAV_CMD_OVERRIDE_GOTO" 252;
  SEntry "MAV_CMD" 252 "MAV_CMD_OVERRIDE_GOTO";
  SParam "MAV_CMD" 252 1;
  SParam "MAV_CMD" 252 2;
  SParam "MAV_CMD" 252 3;
  SParam "MAV_CMD" 252 4;
  SParam "MAV_CMD" 252 5;
  SParam "MAV_CMD" 252 6;
  SParam "MAV_CMD" 252 7;
  SConst "MAV_CMD_MISSION_START" 300;
  SEntry "MAV_CMD" 300 "MAV_CMD_MISSION_START";
  SParam "MAV_CMD" 300 1;
  SParam "MAV_CMD" 300 2;
  SParam "MAV_CMD" 300 3;
  SParam "MAV_CMD" 300 4;
  SParam "MAV_CMD" 300 5;
  SParam "MAV_CMD" 300 6;
  SParam "MAV_CMD" 300 7;
  SConst "MAV_CMD_COMPONENT_ARM_DISARM" 400;
  SEntry "MAV_CMD" 400 "MAV_CMD_COMPONENT_ARM_DISARM";
  SParam "MAV_CMD" 400 1;
  SParam "MAV_CMD" 400 2;
  SParam "MAV_CMD" 400 3;
  SParam "MAV_CMD" 400 4;
  SParam "MAV_CMD" 400 5;
  SParam "MAV_CMD" 400 6;
  SParam "MAV_CMD" 400 7;
  SConst "MAV_CMD_GET_HOME_POSITION" 410;
  SEntry "MAV_CMD" 410 "MAV_CMD_GET_HOME_POSITION";
  SParam "MAV_CMD" 410 1;
  SParam "MAV_CMD" 410 2;
  SParam "MAV_CMD" 410 3;
  SParam "MAV_CMD" 410 4;
  SParam "MAV_CMD" 410 5;
  SParam "MAV_CMD" 410 6;
  SParam "MAV_CMD" 410 7;
  SConst "MAV_CMD_START_RX_PAIR" 500;
  SEntry "MAV_CMD" 500 "MAV_CMD_START_RX_PAIR";
  SParam "MAV_CMD" 500 1;
  SParam "MAV_CMD" 500 2;
  SParam "MAV_CMD" 500 3;
  SParam "MAV_CMD" 500 4;
  SParam "MAV_CMD" 500 5;
  SParam "MAV_CMD" 500 6;
  SParam "MAV_CMD" 500 7;
  SConst "MAV_CMD_GET_MESSAGE_INTERVAL" 510;
  SEntry "MAV_CMD" 510 "MAV_CMD_GET_MESSAGE_INTERVAL";
  SParam "MAV_CMD" 510 1;
  SParam "MAV_CMD" 510 2;
  SParam "MAV_CMD" 510 3;
  SParam "MAV_CMD" 510 4;
  SParam "MAV_CMD" 510 5;
  SParam "MAV_CMD" 510 6;
  SParam "MAV_CMD" 510 7;
  SConst "MAV_CMD_SET_MESSAGE_INTERVAL" 511;
  SEntry "MAV_CMD" 511 "MAV_CMD_SET_MESSAGE_INTERVAL";
  SParam "MAV_CMD" 511 1;
  SParam "MAV_CMD" 511 2;
  SParam "MAV_CMD" 511 3;
  SParam "MAV_CMD" 511 4;
  SParam "MAV_CMD" 511 5;
  SParam "MAV_CMD" 511 6;
  SParam "MAV_CMD" 511 7;
  SConst "MAV_CMD_REQUEST_AUTOPILOT_CAPABILITIES" 520;
  SEntry "MAV_CMD" 520 "MAV_CMD_REQUEST_AUTOPILOT_CAPABILITIES";
  SParam "MAV_CMD" 520 1;
  SParam "MAV_CMD" 520 2;
  SParam "MAV_CMD" 520 3;
  SParam "MAV_CMD" 520 4;
  SParam "MAV_CMD" 520 5;
  SParam "MAV_CMD" 520 6;
  SParam "MAV_CMD" 520 7;
  SConst "MAV_CMD_IMAGE_START_CAPTURE" 2000;
  SEntry "MAV_CMD" 2000 "MAV_CMD_IMAGE_START_CAPTURE";
  SParam "MAV_CMD" 2000 1;
  SParam "MAV_CMD" 2000 2;
  SParam "MAV_CMD" 2000 3;
  SParam "MAV_CMD" 2000 4;
  SParam "MAV_CMD" 2000 5;
  SParam "MAV_CMD" 2000 6;
  SParam "MAV_CMD" 2000 7;
  SConst "MAV_CMD_IMAGE_STOP_CAPTURE" 2001;
  SEntry "MAV_CMD" 2001 "MAV_CMD_IMAGE_STOP_CAPTURE";
  SParam "MAV_CMD" 2001 1;
  SParam "MAV_CMD" 2001 2;
  SParam "MAV_CMD" 2001 3;
  SParam "MAV_CMD" 2001 4;
  SParam "MAV_CMD" 2001 5;
  SParam "MAV_CMD" 2001 6;
  SParam "MAV_CMD" 2001 7;
  SConst "MAV_CMD_DO_TRIGGER_CONTROL" 2003;
  SEntry "MAV_CMD" 2003 "MAV_CMD_DO_TRIGGER_CONTROL";
  SParam "MAV_CMD" 2003 1;
  SParam "MAV_CMD" 2003 2;
  SParam "MAV_CMD" 2003 3;
  SParam "MAV_CMD" 2003 4;
  SParam "MAV_CMD" 2003 5;
  SParam "MAV_CMD" 2003 6;
  SParam "MAV_CMD" 2003 7;
  SConst "MAV_CMD_VIDEO_START_CAPTURE" 2500;
  SEntry "MAV_CMD" 2500 "MAV_CMD_VIDEO_START_CAPTURE";
  SParam "MAV_CMD" 2500 1;
  SParam "MAV_CMD" 2500 2;
  SParam "MAV_CMD" 2500 3;
  SParam "MAV_CMD" 2500 4;
  SParam "MAV_CMD" 2500 5;
  SParam "MAV_CMD" 2500 6;
  SParam "MAV_CMD" 2500 7;
  SConst "MAV_CMD_VIDEO_STOP_CAPTURE" 2501;
  SEntry "MAV_CMD" 2501 "MAV_CMD_VIDEO_STOP_CAPTURE";
  SParam "MAV_CMD" 2501 1;
  SParam "MAV_CMD" 2501 2;
  SParam "MAV_CMD" 2501 3;
  SParam "MAV_CMD" 2501 4;
  SParam "MAV_CMD" 2501 5;
  SParam "MAV_CMD" 2501 6;
  SParam "MAV_CMD" 2501 7;
  SConst "MAV_CMD_PANORAMA_CREATE" 2800;
  SEntry "MAV_CMD" 2800 "MAV_CMD_PANORAMA_CREATE";
  SParam "MAV_CMD" 2800 1;
  SParam "MAV_CMD" 2800 2;
  SParam "MAV_CMD" 2800 3;
  SParam "MAV_CMD" 2800 4;
  SParam "MAV_CMD" 2800 5;
  SParam "MAV_CMD" 2800 6;
  SParam "MAV_CMD" 2800 7;
  SConst "MAV_CMD_DO_VTOL_TRANSITION" 3000;
  SEntry "MAV_CMD" 3000 "MAV_CMD_DO_VTOL_TRANSITION";
  SParam "MAV_CMD" 3000 1;
  SParam "MAV_CMD" 3000 2;
  SParam "MAV_CMD" 3000 3;
  SParam "MAV_CMD" 3000 4;
  SParam "MAV_CMD" 3000 5;
  SParam "MAV_CMD" 3000 6;
  SParam "MAV_CMD" 3000 7;
  SConst "MAV_CMD_PAYLOAD_PREPARE_DEPLOY" 30001;
  SEntry "MAV_CMD" 30001 "MAV_CMD_PAYLOAD_PREPARE_DEPLOY";
  SParam "MAV_CMD" 30001 1;
  SParam "MAV_CMD" 30001 2;
  SParam "MAV_CMD" 30001 3;
  SParam "MAV_CMD" 30001 4;
  SParam "MAV_CMD" 30001 5;
  SParam "MAV_CMD" 30001 6;
  SParam "MAV_CMD" 30001 7;
  SConst "MAV_CMD_PAYLOAD_CONTROL_DEPLOY" 30002;
  SEntry "MAV_CMD" 30002 "MAV_CMD_PAYLOAD_CONTROL_DEPLOY";
  SParam "MAV_CMD" 30002 1;
  SParam "MAV_CMD" 30002 2;
  SParam "MAV_CMD" 30002 3;
  SParam "MAV_CMD" 30002 4;
  SParam "MAV_CMD" 30002 5;
  SParam "MAV_CMD" 30002 6;
  SParam "MAV_CMD" 30002 7;
  SConst "MAV_CMD_ENUM_END" 30003;
  SEntry "MAV_CMD" 30003 "MAV_CMD_ENUM_END";
  SEnum "MAV_DATA_STREAM";
  SConst "MAV_DATA_STREAM_ALL" 0;
  SEntry "MAV_DATA_STREAM" 0 "MAV_DATA_STREAM_ALL";
  SConst "MAV_DATA_STREAM_RAW_SENSORS" 1;
  SEntry "MAV_DATA_STREAM" 1 "MAV_DATA_STREAM_RAW_SENSORS";
  SConst "MAV_DATA_STREAM_EXTENDED_STATUS" 2;
  SEntry "MAV_DATA_STREAM" 2 "MAV_DATA_STREAM_EXTENDED_STATUS";
  SConst "MAV_DATA_STREAM_RC_CHANNELS" 3;
  SEntry "MAV_DATA_STREAM" 3 "MAV_DATA_STREAM_RC_CHANNELS";
  SConst "MAV_DATA_STREAM_RAW_CONTROLLER" 4;
  SEntry "MAV_DATA_STREAM" 4 "MAV_DATA_STREAM_RAW_CONTROLLER";
  SConst "MAV_DATA_STREAM_POSITION" 6;
  SEntry "MAV_DATA_STREAM" 6 "MAV_DATA_STREAM_POSITION";
  SConst "MAV_DATA_STREAM_EXTRA1" 10;
  SEntry "MAV_DATA_STREAM" 10 "MAV_DATA_STREAM_EXTRA1";
  SConst "MAV_DATA_STREAM_EXTRA2" 11;
  SEntry "MAV_DATA_STREAM" 11 "MAV_DATA_STREAM_EXTRA2";
  SConst "MAV_DATA_STREAM_EXTRA3" 12;
  SEntry "MAV_DATA_STREAM" 12 "MAV_DATA_STREAM_EXTRA3";
  SConst "MAV_DATA_STREAM_ENUM_END" 13;
  SEntry "MAV_DATA_STREAM" 13 "MAV_DATA_STREAM_ENUM_END";
  SEnum "MAV_ROI";
  SConst "MAV_ROI_NONE" 0;
  SEntry "MAV_ROI" 0 "MAV_ROI_NONE";
  SConst "MAV_ROI_WPNEXT" 1;
  SEntry "MAV_ROI" 1 "MAV_ROI_WPNEXT";
  SConst "MAV_ROI_WPINDEX" 2;
  SEntry "MAV_ROI" 2 "MAV_ROI_WPINDEX";
  SConst "MAV_ROI_LOCATION" 3;
  SEntry "MAV_ROI" 3 "MAV_ROI_LOCATION";
  SConst "MAV_ROI_TARGET" 4;
  SEntry "MAV_ROI" 4 "MAV_ROI_TARGET";
  SConst "MAV_ROI_ENUM_END" 5;
  SEntry "MAV_ROI" 5 "MAV_ROI_ENUM_END";
  SEnum "MAV_CMD_ACK";
  SConst "MAV_CMD_ACK_OK" 1;
  SEntry "MAV_CMD_ACK" 1 "MAV_CMD_ACK_OK";
  SParam "MAV_CMD_ACK" 1 1;
  SParam "MAV_CMD_ACK" 1 2;
  SParam "MAV_CMD_ACK" 1 3;
  SParam "MAV_CMD_ACK" 1 4;
  SParam "MAV_CMD_ACK" 1 5;
  SParam "MAV_CMD_ACK" 1 6;
  SParam "MAV_CMD_ACK" 1 7;
  SConst "MAV_CMD_ACK_ERR_FAIL" 2;
  SEntry "MAV_CMD_ACK" 2 "MAV_CMD_ACK_ERR_FAIL";
  SParam "MAV_CMD_ACK" 2 1;
  SParam "MAV_CMD_ACK" 2 2;
  SParam "MAV_CMD_ACK" 2 3;
  SParam "MAV_CMD_ACK" 2 4;
  SParam "MAV_CMD_ACK" 2 5;
  SParam "MAV_CMD_ACK" 2 6;
  SParam "MAV_CMD_ACK" 2 7;
  SConst "MAV_CMD_ACK_ERR_ACCESS_DENIED" 3;
  SEntry "MAV_CMD_ACK" 3 "MAV_CMD_ACK_ERR_ACCESS_DENIED";
  SParam "MAV_CMD_ACK" 3 1;
  SParam "MAV_CMD_ACK" 3 2;
  SParam "MAV_CMD_ACK" 3 3;
  SParam "MAV_CMD_ACK" 3 4;
  SParam "MAV_CMD_ACK" 3 5;
  SParam "MAV_CMD_ACK" 3 6;
  SParam "MAV_CMD_ACK" 3 7;
  SConst "MAV_CMD_ACK_ERR_NOT_SUPPORTED" 4;
  SEntry "MAV_CMD_ACK" 4 "MAV_CMD_ACK_ERR_NOT_SUPPORTED";
  SParam "MAV_CMD_ACK" 4 1;
  SParam "MAV_CMD_ACK" 4 2;
  SParam "MAV_CMD_ACK" 4 3;
  SParam "MAV_CMD_ACK" 4 4;
  SParam "MAV_CMD_ACK" 4 5;
  SParam "MAV_CMD_ACK" 4 6;
  SParam "MAV_CMD_ACK" 4 7;
  SConst "MAV_CMD_ACK_ERR_COORDINATE_FRAME_NOT_SUPPORTED" 5;
  SEntry "MAV_CMD_ACK" 5 "MAV_CMD_ACK_ERR_COORDINATE_FRAME_NOT_SUPPORTED";
  SParam "MAV_CMD_ACK" 5 1;
  SParam "MAV_CMD_ACK" 5 2;
  SParam "MAV_CMD_ACK" 5 3;
  SParam "MAV_CMD_ACK" 5 4;
  SParam "MAV_CMD_ACK" 5 5;
  SParam "MAV_CMD_ACK" 5 6;
  SParam "MAV_CMD_ACK" 5 7;
  SConst "MAV_CMD_ACK_ERR_COORDINATES_OUT_OF_RANGE" 6;
  SEntry "MAV_CMD_ACK" 6 "MAV_CMD_ACK_ERR_COORDINATES_OUT_OF_RANGE";
  SParam "MAV_CMD_ACK" 6 1;
  SParam "MAV_CMD_ACK" 6 2;
  SParam "MAV_CMD_ACK" 6 3;
  SParam "MAV_CMD_ACK" 6 4;
  SParam "MAV_CMD_ACK" 6 5;
  SParam "MAV_CMD_ACK" 6 6;
  SParam "MAV_CMD_ACK" 6 7;
  SConst "MAV_CMD_ACK_ERR_X_LAT_OUT_OF_RANGE" 7;
  SEntry "MAV_CMD_ACK" 7 "MAV_CMD_ACK_ERR_X_LAT_OUT_OF_RANGE";
  SParam "MAV_CMD_ACK" 7 1;
  SParam "MAV_CMD_ACK" 7 2;
  SParam "MAV_CMD_ACK" 7 3;
  SParam "MAV_CMD_ACK" 7 4;
  SParam "MAV_CMD_ACK" 7 5;
  SParam "MAV_CMD_ACK" 7 6;
  SParam "MAV_CMD_ACK" 7 7;
  SConst "MAV_CMD_ACK_ERR_Y_LON_OUT_OF_RANGE" 8;
  SEntry "MAV_CMD_ACK" 8 "MAV_CMD_ACK_ERR_Y_LON_OUT_OF_RANGE";
  SParam "MAV_CMD_ACK" 8 1;
  SParam "MAV_CMD_ACK" 8 2;
  SParam "MAV_CMD_ACK" 8 3;
  SParam "MAV_CMD_ACK" 8 4;
  SParam "MAV_CMD_ACK" 8 5;
  SParam "MAV_CMD_ACK" 8 6;
  SParam "MAV_CMD_ACK" 8 7;
  SConst "MAV_CMD_ACK_ERR_Z_ALT_OUT_OF_RANGE" 9;
  SEntry "MAV_CMD_ACK" 9 "MAV_CMD_ACK_ERR_Z_ALT_OUT_OF_RANGE";
  SParam "MAV_CMD_ACK" 9 1;
  SParam "MAV_CMD_ACK" 9 2;
  SParam "MAV_CMD_ACK" 9 3;
  SParam "MAV_CMD_ACK" 9 4;
  SParam "MAV_CMD_ACK" 9 5;
  SParam "MAV_CMD_ACK" 9 6;
  SParam "MAV_CMD_ACK" 9 7;
  SConst "MAV_CMD_ACK_ENUM_END" 10;
  SEntry "MAV_CMD_ACK" 10 "MAV_CMD_ACK_ENUM_END";
  SEnum "MAV_PARAM_TYPE";
  SConst "MAV_PARAM_TYPE_UINT8" 1;
  SEntry "MAV_PARAM_TYPE" 1 "MAV_PARAM_TYPE_UINT8";
  SConst "MAV_PARAM_TYPE_INT8" 2;
  SEntry "MAV_PARAM_TYPE" 2 "MAV_PARAM_TYPE_INT8";
  SConst "MAV_PARAM_TYPE_UINT16" 3;
  SEntry "MAV_PARAM_TYPE" 3 "MAV_PARAM_TYPE_UINT16";
  SConst "MAV_PARAM_TYPE_INT16" 4;
  SEntry "MAV_PARAM_TYPE" 4 "MAV_PARAM_TYPE_INT16";
  SConst "MAV_PARAM_TYPE_UINT32" 5;
  SEntry "MAV_PARAM_TYPE" 5 "MAV_PARAM_TYPE_UINT32";
  SConst "MAV_PARAM_TYPE_INT32" 6;
  SEntry "MAV_PARAM_TYPE" 6 "MAV_PARAM_TYPE_INT32";
  SConst "MAV_PARAM_TYPE_UINT64" 7;
  SEntry "MAV_PARAM_TYPE" 7 "MAV_PARAM_TYPE_UINT64";
  SConst "MAV_PARAM_TYPE_INT64" 8;
  SEntry "MAV_PARAM_TYPE" 8 "MAV_PARAM_TYPE_INT64";
  SConst "MAV_PARAM_TYPE_REAL32" 9;
  SEntry "MAV_PARAM_TYPE" 9 "MAV_PARAM_TYPE_REAL32";
  SConst "MAV_PARAM_TYPE_REAL64" 10;
  SEntry "MAV_PARAM_TYPE" 10 "MAV_PARAM_TYPE_REAL64";
  SConst "MAV_PARAM_TYPE_ENUM_END" 11;
  SEntry "MAV_PARAM_TYPE" 11 "MAV_PARAM_TYPE_ENUM_END";
  SEnum "MAV_RESULT";
  SConst "MAV_RESULT_ACCEPTED" 0;
  SEntry "MAV_RESULT" 0 "MAV_RESULT_ACCEPTED";
  SConst "MAV_RESULT_TEMPORARILY_REJECTED" 1;
  SEntry "MAV_RESULT" 1 "MAV_RESULT_TEMPORARILY_REJECTED";
  SConst "MAV_RESULT_DENIED" 2;
  SEntry "MAV_RESULT" 2 "MAV_RESULT_DENIED";
  SConst "MAV_RESULT_UNSUPPORTED" 3;
  SEntry "MAV_RESULT" 3 "MAV_RESULT_UNSUPPORTED";
  SConst "MAV_RESULT_FAILED" 4;
  SEntry "MAV_RESULT" 4 "MAV_RESULT_FAILED";
  SConst "MAV_RESULT_ENUM_END" 5;
  SEntry "MAV_RESULT" 5 "MAV_RESULT_ENUM_END";
  SEnum "MAV_MISSION_RESULT";
  SConst "MAV_MISSION_ACCEPTED" 0;
  SEntry "MAV_MISSION_RESULT" 0 "MAV_MISSION_ACCEPTED";
  SConst "MAV_MISSION_ERROR" 1;
  SEntry "MAV_MISSION_RESULT" 1 "MAV_MISSION_ERROR";
  SConst "MAV_MISSION_UNSUPPORTED_FRAME" 2;
  SEntry "MAV_MISSION_RESULT" 2 "MAV_MISSION_UNSUPPORTED_FRAME";
  SConst "MAV_MISSION_UNSUPPORTED" 3;
  SEntry "MAV_MISSION_RESULT" 3 "MAV_MISSION_UNSUPPORTED";
  SConst "MAV_MISSION_NO_SPACE" 4;
  SEntry "MAV_MISSION_RESULT" 4 "MAV_MISSION_NO_SPACE";
  SConst "MAV_MISSION_INVALID" 5;
  SEntry "MAV_MISSION_RESULT" 5 "MAV_MISSION_INVALID";
  SConst "MAV_MISSION_INVALID_PARAM1" 6;
  SEntry "MAV_MISSION_RESULT" 6 "MAV_MISSION_INVALID_PARAM1";
  SConst "MAV_MISSION_INVALID_PARAM2" 7;
  SEntry "MAV_MISSION_RESULT" 7 "MAV_MISSION_INVALID_PARAM2";
  SConst "MAV_MISSION_INVALID_PARAM3" 8;
  SEntry "MAV_MISSION_RESULT" 8 "MAV_MISSION_INVALID_PARAM3";
  SConst "MAV_MISSION_INVALID_PARAM4" 9;
  SEntry "MAV_MISSION_RESULT" 9 "MAV_MISSION_INVALID_PARAM4";
  SConst "MAV_MISSION_INVALID_PARAM5_X" 10;
  SEntry "MAV_MISSION_RESULT" 10 "MAV_MISSION_INVALID_PARAM5_X";
  SConst "MAV_MISSION_INVALID_PARAM6_Y" 11;
  SEntry "MAV_MISSION_RESULT" 11 "MAV_MISSION_INVALID_PARAM6_Y";
  SConst "MAV_MISSION_INVALID_PARAM7" 12;
  SEntry "MAV_MISSION_RESULT" 12 "MAV_MISSION_INVALID_PARAM7";
  SConst "MAV_MISSION_INVALID_SEQUENCE" 13;
  SEntry "MAV_MISSION_RESULT" 13 "MAV_MISSION_INVALID_SEQUENCE";
  SConst "MAV_MISSION_DENIED" 14;
  SEntry "MAV_MISSION_RESULT" 14 "MAV_MISSION_DENIED";
  SConst "MAV_MISSION_RESULT_ENUM_END" 15;
  SEntry "MAV_MISSION_RESULT" 15 "MAV_MISSION_RESULT_ENUM_END";
  SEnum "MAV_SEVERITY";
  SConst "MAV_SEVERITY_EMERGENCY" 0;
  SEntry "MAV_SEVERITY" 0 "MAV_SEVERITY_EMERGENCY";
  SConst "MAV_SEVERITY_ALERT" 1;
  SEntry "MAV_SEVERITY" 1 "MAV_SEVERITY_ALERT";
  SConst "MAV_SEVERITY_CRITICAL" 2;
  SEntry "MAV_SEVERITY" 2 "MAV_SEVERITY_CRITICAL";
  SConst "MAV_SEVERITY_ERROR" 3;
  SEntry "MAV_SEVERITY" 3 "MAV_SEVERITY_ERROR";
  SConst "MAV_SEVERITY_WARNING" 4;
  SEntry "MAV_SEVERITY" 4 "MAV_SEVERITY_WARNING";
  SConst "MAV_SEVERITY_NOTICE" 5;
  SEntry "MAV_SEVERITY" 5 "MAV_SEVERITY_NOTICE";
  SConst "MAV_SEVERITY_INFO" 6;
  SEntry "MAV_SEVERITY" 6 "MAV_SEVERITY_INFO";
  SConst "MAV_SEVERITY_DEBUG" 7;
  SEntry "MAV_SEVERITY" 7 "MAV_SEVERITY_DEBUG";
  SConst "MAV_SEVERITY_ENUM_END" 8;
  SEntry "MAV_SEVERITY" 8 "MAV_SEVERITY_ENUM_END";
  SEnum "MAV_POWER_STATUS";
  SConst "MAV_POWER_STATUS_BRICK_VALID" 1;
  SEntry "MAV_POWER_STATUS" 1 "MAV_POWER_STATUS_BRICK_VALID";
  SConst "MAV_POWER_STATUS_SERVO_VALID" 2;
  SEntry "MAV_POWER_STATUS" 2 "MAV_POWER_STATUS_SERVO_VALID";
  SConst "MAV_POWER_STATUS_USB_CONNECTED" 4;
  SEntry "MAV_POWER_STATUS" 4 "MAV_POWER_STATUS_USB_CONNECTED";
  SConst "MAV_POWER_STATUS_PERIPH_OVERCURRENT" 8;
  SEntry "MAV_POWER_STATUS" 8 "MAV_POWER_STATUS_PERIPH_OVERCURRENT";
  SConst "MAV_POWER_STATUS_PERIPH_HIPOWER_OVERCURRENT" 16;
  SEntry "MAV_POWER_STATUS" 16 "MAV_POWER_STATUS_PERIPH_HIPOWER_OVERCURRENT";
  SConst "MAV_POWER_STATUS_CHANGED" 32;
  SEntry "MAV_POWER_STATUS" 32 "MAV_POWER_STATUS_CHANGED";
  SConst "MAV_POWER_STATUS_ENUM_END" 33;
  SEntry "MAV_POWER_STATUS" 33 "MAV_POWER_STATUS_ENUM_END";
  SEnum "SERIAL_CONTROL_DEV";
  SConst "SERIAL_CONTROL_DEV_TELEM1" 0;
  SEntry "SERIAL_CONTROL_DEV" 0 "SERIAL_CONTROL_DEV_TELEM1";
  SConst "SERIAL_CONTROL_DEV_TELEM2" 1;
  SEntry "SERIAL_CONTROL_DEV" 1 "SERIAL_CONTROL_DEV_TELEM2";
  SConst "SERIAL_CONTROL_DEV_GPS1" 2;
  SEntry "SERIAL_CONTROL_DEV" 2 "SERIAL_CONTROL_DEV_GPS1";
  SConst "SERIAL_CONTROL_DEV_GPS2" 3;
  SEntry "SERIAL_CONTROL_DEV" 3 "SERIAL_CONTROL_DEV_GPS2";
  SConst "SERIAL_CONTROL_DEV_SHELL" 10;
  SEntry "SERIAL_CONTROL_DEV" 10 "SERIAL_CONTROL_DEV_SHELL";
  SConst "SERIAL_CONTROL_DEV_ENUM_END" 11;
  SEntry "SERIAL_CONTROL_DEV" 11 "SERIAL_CONTROL_DEV_ENUM_END";
  SEnum "SERIAL_CONTROL_FLAG";
  SConst "SERIAL_CONTROL_FLAG_REPLY" 1;
  SEntry "SERIAL_CONTROL_FLAG" 1 "SERIAL_CONTROL_FLAG_REPLY";
  SConst "SERIAL_CONTROL_FLAG_RESPOND" 2;
  SEntry "SERIAL_CONTROL_FLAG" 2 "SERIAL_CONTROL_FLAG_RESPOND";
  SConst "SERIAL_CONTROL_FLAG_EXCLUSIVE" 4;
  SEntry "SERIAL_CONTROL_FLAG" 4 "SERIAL_CONTROL_FLAG_EXCLUSIVE";
  SConst "SERIAL_CONTROL_FLAG_BLOCKING" 8;
  SEntry "SERIAL_CONTROL_FLAG" 8 "SERIAL_CONTROL_FLAG_BLOCKING";
  SConst "SERIAL_CONTROL_FLAG_MULTI" 16;
  SEntry "SERIAL_CONTROL_FLAG" 16 "SERIAL_CONTROL_FLAG_MULTI";
  SConst "SERIAL_CONTROL_FLAG_ENUM_END" 17;
  SEntry "SERIAL_CONTROL_FLAG" 17 "SERIAL_CONTROL_FLAG_ENUM_END";
  SEnum "MAV_DISTANCE_SENSOR";
  SConst "MAV_DISTANCE_SENSOR_LASER" 0;
  SEntry "MAV_DISTANCE_SENSOR" 0 "MAV_DISTANCE_SENSOR_LASER";
  SConst "MAV_DISTANCE_SENSOR_ULTRASOUND" 1;
  SEntry "MAV_DISTANCE_SENSOR" 1 "MAV_DISTANCE_SENSOR_ULTRASOUND";
  SConst "MAV_DISTANCE_SENSOR_INFRARED" 2;
  SEntry "MAV_DISTANCE_SENSOR" 2 "MAV_DISTANCE_SENSOR_INFRARED";
  SConst "MAV_DISTANCE_SENSOR_ENUM_END" 3;
  SEntry "MAV_DISTANCE_SENSOR" 3 "MAV_DISTANCE_SENSOR_ENUM_END";
  SEnum "MAV_SENSOR_ORIENTATION";
  SConst "MAV_SENSOR_ROTATION_NONE" 0;
  SEntry "MAV_SENSOR_ORIENTATION" 0 "MAV_SENSOR_ROTATION_NONE";
  SConst "MAV_SENSOR_ROTATION_YAW_45" 1;
  SEntry "MAV_SENSOR_ORIENTATION" 1 "MAV_SENSOR_ROTATION_YAW_45";
  SConst "MAV_SENSOR_ROTATION_YAW_90" 2;
  SEntry "MAV_SENSOR_ORIENTATION" 2 "MAV_SENSOR_ROTATION_YAW_90";
  SConst "MAV_SENSOR_ROTATION_YAW_135" 3;
  SEntry "MAV_SENSOR_ORIENTATION" 3 "MAV_SENSOR_ROTATION_YAW_135";
  SConst "MAV_SENSOR_ROTATION_YAW_180" 4;
  SEntry "MAV_SENSOR_ORIENTATION" 4 "MAV_SENSOR_ROTATION_YAW_180";
  SConst "MAV_SENSOR_ROTATION_YAW_225" 5;
  SEntry "MAV_SENSOR_ORIENTATION" 5 "MAV_SENSOR_ROTATION_YAW_225";
  SConst "MAV_SENSOR_ROTATION_YAW_270" 6;
  SEntry "MAV_SENSOR_ORIENTATION" 6 "MAV_SENSOR_ROTATION_YAW_270";
  SConst "MAV_SENSOR_ROTATION_YAW_315" 7;
  SEntry "MAV_SENSOR_ORIENTATION" 7 "MAV_SENSOR_ROTATION_YAW_315";
  SConst "MAV_SENSOR_ROTATION_ROLL_180" 8;
  SEntry "MAV_SENSOR_ORIENTATION" 8 "MAV_SENSOR_ROTATION_ROLL_180";
  SConst "MAV_SENSOR_ROTATION_ROLL_180_YAW_45" 9;
  SEntry "MAV_SENSOR_ORIENTATION" 9 "MAV_SENSOR_ROTATION_ROLL_180_YAW_45";
  SConst "MAV_SENSOR_ROTATION_ROLL_180_YAW_90" 10;
  SEntry "MAV_SENSOR_ORIENTATION" 10 "MAV_SENSOR_ROTATION_ROLL_180_YAW_90";
  SConst "MAV_SENSOR_ROTATION_ROLL_180_YAW_135" 11;
  SEntry "MAV_SENSOR_ORIENTATION" 11 "MAV_SENSOR_ROTATION_ROLL_180_YAW_135";
  SConst "MAV_SENSOR_ROTATION_PITCH_180" 12;
  SEntry "MAV_SENSOR_ORIENTATION" 12 "MAV_SENSOR_ROTATION_PITCH_180";
  SConst "MAV_SENSOR_ROTATION_ROLL_180_YAW_225" 13;
  SEntry "MAV_SENSOR_ORIENTATION" 13 "MAV_SENSOR_ROTATION_ROLL_180_YAW_225";
  SConst "MAV_SENSOR_ROTATION_ROLL_180_YAW_270" 14;
  SEntry "MAV_SENSOR_ORIENTATION" 14 "MAV_SENSOR_ROTATION_ROLL_180_YAW_270";
  SConst "MAV_SENSOR_ROTATION_ROLL_180_YAW_315" 15;
  SEntry "MAV_SENSOR_ORIENTATION" 15 "MAV_SENSOR_ROTATION_ROLL_180_YAW_315";
  SConst "MAV_SENSOR_ROTATION_ROLL_90" 16;
  SEntry "MAV_SENSOR_ORIENTATION" 16 "MAV_SENSOR_ROTATION_ROLL_90";
  SConst "MAV_SENSOR_ROTATION_ROLL_90_YAW_45" 17;
  SEntry "MAV_SENSOR_ORIENTATION" 17 "MAV_SENSOR_ROTATION_ROLL_90_YAW_45";
  SConst "MAV_SENSOR_ROTATION_ROLL_90_YAW_90" 18;
  SEntry "MAV_SENSOR_ORIENTATION" 18 "MAV_SENSOR_ROTATION_ROLL_90_YAW_90";
  SConst "MAV_SENSOR_ROTATION_ROLL_90_YAW_135" 19;
  SEntry "MAV_SENSOR_ORIENTATION" 19 "MAV_SENSOR_ROTATION_ROLL_90_YAW_135";
  SConst "MAV_SENSOR_ROTATION_ROLL_270" 20;
  SEntry "MAV_SENSOR_ORIENTATION" 20 "MAV_SENSOR_ROTATION_ROLL_270";
  SConst "MAV_SENSOR_ROTATION_ROLL_270_YAW_45" 21;
  SEntry "MAV_SENSOR_ORIENTATION" 21 "MAV_SENSOR_ROTATION_ROLL_270_YAW_45";
  SConst "MAV_SENSOR_ROTATION_ROLL_270_YAW_90" 22;
  SEntry "MAV_SENSOR_ORIENTATION" 22 "MAV_SENSOR_ROTATION_ROLL_270_YAW_90";
  SConst "MAV_SENSOR_ROTATION_ROLL_270_YAW_135" 23;
  SEntry "MAV_SENSOR_ORIENTATION" 23 "MAV_SENSOR_ROTATION_ROLL_270_YAW_135";
  SConst "MAV_SENSOR_ROTATION_PITCH_90" 24;
  SEntry "MAV_SENSOR_ORIENTATION" 24 "MAV_SENSOR_ROTATION_PITCH_90";
  SConst "MAV_SENSOR_ROTATION_PITCH_270" 25;
  SEntry "MAV_SENSOR_ORIENTATION" 25 "MAV_SENSOR_ROTATION_PITCH_270";
  SConst "MAV_SENSOR_ROTATION_PITCH_180_YAW_90" 26;
  SEntry "MAV_SENSOR_ORIENTATION" 26 "MAV_SENSOR_ROTATION_PITCH_180_YAW_90";
  SConst "MAV_SENSOR_ROTATION_PITCH_180_YAW_270" 27;
  SEntry "MAV_SENSOR_ORIENTATION" 27 "MAV_SENSOR_ROTATION_PITCH_180_YAW_270";
  SConst "MAV_SENSOR_ROTATION_ROLL_90_PITCH_90" 28;
  SEntry "MAV_SENSOR_ORIENTATION" 28 "MAV_SENSOR_ROTATION_ROLL_90_PITCH_90";
  SConst "MAV_SENSOR_ROTATION_ROLL_180_PITCH_90" 29;
  SEntry "MAV_SENSOR_ORIENTATION" 29 "MAV_SENSOR_ROTATION_ROLL_180_PITCH_90";
  SConst "MAV_SENSOR_ROTATION_ROLL_270_PITCH_90" 30;
  SEntry "MAV_SENSOR_ORIENTATION" 30 "MAV_SENSOR_ROTATION_ROLL_270_PITCH_90";
  SConst "MAV_SENSOR_ROTATION_ROLL_90_PITCH_180" 31;
  SEntry "MAV_SENSOR_ORIENTATION" 31 "MAV_SENSOR_ROTATION_ROLL_90_PITCH_180";
  SConst "MAV_SENSOR_ROTATION_ROLL_270_PITCH_180" 32;
  SEntry "MAV_SENSOR_ORIENTATION" 32 "MAV_SENSOR_ROTATION_ROLL_270_PITCH_180";
  SConst "MAV_SENSOR_ROTATION_ROLL_90_PITCH_270" 33;
  SEntry "MAV_SENSOR_ORIENTATION" 33 "MAV_SENSOR_ROTATION_ROLL_90_PITCH_270";
  SConst "MAV_SENSOR_ROTATION_ROLL_180_PITCH_270" 34;
  SEntry "MAV_SENSOR_ORIENTATION" 34 "MAV_SENSOR_ROTATION_ROLL_180_PITCH_270";
  SConst "MAV_SENSOR_ROTATION_ROLL_270_PITCH_270" 35;
  SEntry "MAV_SENSOR_ORIENTATION" 35 "MAV_SENSOR_ROTATION_ROLL_270_PITCH_270";
  SConst "MAV_SENSOR_ROTATION_ROLL_90_PITCH_180_YAW_90" 36;
  SEntry "MAV_SENSOR_ORIENTATION" 36 "MAV_SENSOR_ROTATION_ROLL_90_PITCH_180_YAW_90";
  SConst "MAV_SENSOR_ROTATION_ROLL_90_YAW_270" 37;
  SEntry "MAV_SENSOR_ORIENTATION" 37 "MAV_SENSOR_ROTATION_ROLL_90_YAW_270";
  SConst "MAV_SENSOR_ROTATION_ROLL_315_PITCH_315_YAW_315" 38;
  SEntry "MAV_SENSOR_ORIENTATION" 38 "MAV_SENSOR_ROTATION_ROLL_315_PITCH_315_YAW_315";
  SConst "MAV_SENSOR_ORIENTATION_ENUM_END" 39;
  SEntry "MAV_SENSOR_ORIENTATION" 39 "MAV_SENSOR_ORIENTATION_ENUM_END";
  SEnum "MAV_PROTOCOL_CAPABILITY";
  SConst "MAV_PROTOCOL_CAPABILITY_MISSION_FLOAT" 1;
  SEntry "MAV_PROTOCOL_CAPABILITY" 1 "MAV_PROTOCOL_CAPABILITY_MISSION_FLOAT";
  SConst "MAV_PROTOCOL_CAPABILITY_PARAM_FLOAT" 2;
  SEntry "MAV_PROTOCOL_CAPABILITY" 2 "MAV_PROTOCOL_CAPABILITY_PARAM_FLOAT";
  SConst "MAV_PROTOCOL_CAPABILITY_MISSION_INT" 4;
  SEntry "MAV_PROTOCOL_CAPABILITY" 4 "MAV_PROTOCOL_CAPABILITY_MISSION_INT";
  SConst "MAV_PROTOCOL_CAPABILITY_COMMAND_INT" 8;
  SEntry "MAV_PROTOCOL_CAPABILITY" 8 "MAV_PROTOCOL_CAPABILITY_COMMAND_INT";
  SConst "MAV_PROTOCOL_CAPABILITY_PARAM_UNION" 16;
  SEntry "MAV_PROTOCOL_CAPABILITY" 16 "MAV_PROTOCOL_CAPABILITY_PARAM_UNION";
  SConst "MAV_PROTOCOL_CAPABILITY_FTP" 32;
  SEntry "MAV_PROTOCOL_CAPABILITY" 32 "MAV_PROTOCOL_CAPABILITY_FTP";
  SConst "MAV_PROTOCOL_CAPABILITY_SET_ATTITUDE_TARGET" 64;
  SEntry "MAV_PROTOCOL_CAPABILITY" 64 "MAV_PROTOCOL_CAPABILITY_SET_ATTITUDE_TARGET";
  SConst "MAV_PROTOCOL_CAPABILITY_SET_POSITION_TARGET_LOCAL_NED" 128;
  SEntry "MAV_PROTOCOL_CAPABILITY" 128 "MAV_PROTOCOL_CAPABILITY_SET_POSITION_TARGET_LOCAL_NED";
  SConst "MAV_PROTOCOL_CAPABILITY_SET_POSITION_TARGET_GLOBAL_INT" 256;
  SEntry "MAV_PROTOCOL_CAPABILITY" 256 "MAV_PROTOCOL_CAPABILITY_SET_POSITION_TARGET_GLOBAL_INT";
  SConst "MAV_PROTOCOL_CAPABILITY_TERRAIN" 512;
  SEntry "MAV_PROTOCOL_CAPABILITY" 512 "MAV_PROTOCOL_CAPABILITY_TERRAIN";
  SConst "MAV_PROTOCOL_CAPABILITY_SET_ACTUATOR_TARGET" 1024;
  SEntry "MAV_PROTOCOL_CAPABILITY" 1024 "MAV_PROTOCOL_CAPABILITY_SET_ACTUATOR_TARGET";
  SConst "MAV_PROTOCOL_CAPABILITY_FLIGHT_TERMINATION" 2048;
  SEntry "MAV_PROTOCOL_CAPABILITY" 2048 "MAV_PROTOCOL_CAPABILITY_FLIGHT_TERMINATION";
  SConst "MAV_PROTOCOL_CAPABILITY_COMPASS_CALIBRATION" 4096;
  SEntry "MAV_PROTOCOL_CAPABILITY" 4096 "MAV_PROTOCOL_CAPABILITY_COMPASS_CALIBRATION";
  SConst "MAV_PROTOCOL_CAPABILITY_ENUM_END" 4097;
  SEntry "MAV_PROTOCOL_CAPABILITY" 4097 "MAV_PROTOCOL_CAPABILITY_ENUM_END";
  SEnum "MAV_ESTIMATOR_TYPE";
  SConst "MAV_ESTIMATOR_TYPE_NAIVE" 1;
  SEntry "MAV_ESTIMATOR_TYPE" 1 "MAV_ESTIMATOR_TYPE_NAIVE";
  SConst "MAV_ESTIMATOR_TYPE_VISION" 2;
  SEntry "MAV_ESTIMATOR_TYPE" 2 "MAV_ESTIMATOR_TYPE_VISION";
  SConst "MAV_ESTIMATOR_TYPE_VIO" 3;
  SEntry "MAV_ESTIMATOR_TYPE" 3 "MAV_ESTIMATOR_TYPE_VIO";
  SConst "MAV_ESTIMATOR_TYPE_GPS" 4;
  SEntry "MAV_ESTIMATOR_TYPE" 4 "MAV_ESTIMATOR_TYPE_GPS";
  SConst "MAV_ESTIMATOR_TYPE_GPS_INS" 5;
  SEntry "MAV_ESTIMATOR_TYPE" 5 "MAV_ESTIMATOR_TYPE_GPS_INS";
  SConst "MAV_ESTIMATOR_TYPE_ENUM_END" 6;
  SEntry "MAV_ESTIMATOR_TYPE" 6 "MAV_ESTIMATOR_TYPE_ENUM_END";
  SEnum "MAV_BATTERY_TYPE";
  SConst "MAV_BATTERY_TYPE_UNKNOWN" 0;
  SEntry "MAV_BATTERY_TYPE" 0 "MAV_BATTERY_TYPE_UNKNOWN";
  SConst "MAV_BATTERY_TYPE_LIPO" 1;
  SEntry "MAV_BATTERY_TYPE" 1 "MAV_BATTERY_TYPE_LIPO";
  SConst "MAV_BATTERY_TYPE_LIFE" 2;
  SEntry "MAV_BATTERY_TYPE" 2 "MAV_BATTERY_TYPE_LIFE";
  SConst "MAV_BATTERY_TYPE_LION" 3;
  SEntry "MAV_BATTERY_TYPE" 3 "MAV_BATTERY_TYPE_LION";
  SConst "MAV_BATTERY_TYPE_NIMH" 4;
  SEntry "MAV_BATTERY_TYPE" 4 "MAV_BATTERY_TYPE_NIMH";
  SConst "MAV_BATTERY_TYPE_ENUM_END" 5;
  SEntry "MAV_BATTERY_TYPE" 5 "MAV_BATTERY_TYPE_ENUM_END";
  SEnum "MAV_BATTERY_FUNCTION";
  SConst "MAV_BATTERY_FUNCTION_UNKNOWN" 0;
  SEntry "MAV_BATTERY_FUNCTION" 0 "MAV_BATTERY_FUNCTION_UNKNOWN";
  SConst "MAV_BATTERY_FUNCTION_ALL" 1;
  SEntry "MAV_BATTERY_FUNCTION" 1 "MAV_BATTERY_FUNCTION_ALL";
  SConst "MAV_BATTERY_FUNCTION_PROPULSION" 2;
  SEntry "MAV_BATTERY_FUNCTION" 2 "MAV_BATTERY_FUNCTION_PROPULSION";
  SConst "MAV_BATTERY_FUNCTION_AVIONICS" 3;
  SEntry "MAV_BATTERY_FUNCTION" 3 "MAV_BATTERY_FUNCTION_AVIONICS";
  SConst "MAV_BATTERY_TYPE_PAYLOAD" 4;
  SEntry "MAV_BATTERY_FUNCTION" 4 "MAV_BATTERY_TYPE_PAYLOAD";
  SConst "MAV_BATTERY_FUNCTION_ENUM_END" 5;
  SEntry "MAV_BATTERY_FUNCTION" 5 "MAV_BATTERY_FUNCTION_ENUM_END";
  SEnum "MAV_VTOL_STATE";
  SConst "MAV_VTOL_STATE_UNDEFINED" 0;
  SEntry "MAV_VTOL_STATE" 0 "MAV_VTOL_STATE_UNDEFINED";
  SConst "MAV_VTOL_STATE_TRANSITION_TO_FW" 1;
  SEntry "MAV_VTOL_STATE" 1 "MAV_VTOL_STATE_TRANSITION_TO_FW";
  SConst "MAV_VTOL_STATE_TRANSITION_TO_MC" 2;
  SEntry "MAV_VTOL_STATE" 2 "MAV_VTOL_STATE_TRANSITION_TO_MC";
  SConst "MAV_VTOL_STATE_MC" 3;
  SEntry "MAV_VTOL_STATE" 3 "MAV_VTOL_STATE_MC";
  SConst "MAV_VTOL_STATE_FW" 4;
  SEntry "MAV_VTOL_STATE" 4 "MAV_VTOL_STATE_FW";
  SConst "MAV_VTOL_STATE_ENUM_END" 5;
  SEntry "MAV_VTOL_STATE" 5 "MAV_VTOL_STATE_ENUM_END";
  SEnum "MAV_LANDED_STATE";
  SConst "MAV_LANDED_STATE_UNDEFINED" 0;
  SEntry "MAV_LANDED_STATE" 0 "MAV_LANDED_STATE_UNDEFINED";
  SConst "MAV_LANDED_STATE_ON_GROUND" 1;
  SEntry "MAV_LANDED_STATE" 1 "MAV_LANDED_STATE_ON_GROUND";
  SConst "MAV_LANDED_STATE_IN_AIR" 2;
  SEntry "MAV_LANDED_STATE" 2 "MAV_LANDED_STATE_IN_AIR";
  SConst "MAV_LANDED_STATE_ENUM_END" 3;
  SEntry "MAV_LANDED_STATE" 3 "MAV_LANDED_STATE_ENUM_END";
  SEnum "ADSB_ALTITUDE_TYPE";
  SConst "ADSB_ALTITUDE_TYPE_PRESSURE_QNH" 0;
  SEntry "ADSB_ALTITUDE_TYPE" 0 "ADSB_ALTITUDE_TYPE_PRESSURE_QNH";
  SConst "ADSB_ALTITUDE_TYPE_GEOMETRIC" 1;
  SEntry "ADSB_ALTITUDE_TYPE" 1 "ADSB_ALTITUDE_TYPE_GEOMETRIC";
  SConst "ADSB_ALTITUDE_TYPE_ENUM_END" 2;
  SEntry "ADSB_ALTITUDE_TYPE" 2 "ADSB_ALTITUDE_TYPE_ENUM_END";
  SEnum "ADSB_EMITTER_TYPE";
  SConst "ADSB_EMITTER_TYPE_NO_INFO" 0;
  SEntry "ADSB_EMITTER_TYPE" 0 "ADSB_EMITTER_TYPE_NO_INFO";
  SConst "ADSB_EMITTER_TYPE_LIGHT" 1;
  SEntry "ADSB_EMITTER_TYPE" 1 "ADSB_EMITTER_TYPE_LIGHT";
  SConst "ADSB_EMITTER_TYPE_SMALL" 2;
  SEntry "ADSB_EMITTER_TYPE" 2 "ADSB_EMITTER_TYPE_SMALL";
  SConst "ADSB_EMITTER_TYPE_LARGE" 3;
  SEntry "ADSB_EMITTER_TYPE" 3 "ADSB_EMITTER_TYPE_LARGE";
  SConst "ADSB_EMITTER_TYPE_HIGH_VORTEX_LARGE" 4;
  SEntry "ADSB_EMITTER_TYPE" 4 "ADSB_EMITTER_TYPE_HIGH_VORTEX_LARGE";
  SConst "ADSB_EMITTER_TYPE_HEAVY" 5;
  SEntry "ADSB_EMITTER_TYPE" 5 "ADSB_EMITTER_TYPE_HEAVY";
  SConst "ADSB_EMITTER_TYPE_HIGHLY_MANUV" 6;
  SEntry "ADSB_EMITTER_TYPE" 6 "ADSB_EMITTER_TYPE_HIGHLY_MANUV";
  SConst "ADSB_EMITTER_TYPE_ROTOCRAFT" 7;
  SEntry "ADSB_EMITTER_TYPE" 7 "ADSB_EMITTER_TYPE_ROTOCRAFT";
  SConst "ADSB_EMITTER_TYPE_UNASSIGNED" 8;
  SEntry "ADSB_EMITTER_TYPE" 8 "ADSB_EMITTER_TYPE_UNASSIGNED";
  SConst "ADSB_EMITTER_TYPE_GLIDER" 9;
  SEntry "ADSB_EMITTER_TYPE" 9 "ADSB_EMITTER_TYPE_GLIDER";
  SConst "ADSB_EMITTER_TYPE_LIGHTER_AIR" 10;
  SEntry "ADSB_EMITTER_TYPE" 10 "ADSB_EMITTER_TYPE_LIGHTER_AIR";
  SConst "ADSB_EMITTER_TYPE_PARACHUTE" 11;
  SEntry "ADSB_EMITTER_TYPE" 11 "ADSB_EMITTER_TYPE_PARACHUTE";
  SConst "ADSB_EMITTER_TYPE_ULTRA_LIGHT" 12;
  SEntry "ADSB_EMITTER_TYPE" 12 "ADSB_EMITTER_TYPE_ULTRA_LIGHT";
  SConst "ADSB_EMITTER_TYPE_UNASSIGNED2" 13;
  SEntry "ADSB_EMITTER_TYPE" 13 "ADSB_EMITTER_TYPE_UNASSIGNED2";
  SConst "ADSB_EMITTER_TYPE_UAV" 14;
  SEntry "ADSB_EMITTER_TYPE" 14 "ADSB_EMITTER_TYPE_UAV";
  SConst "ADSB_EMITTER_TYPE_SPACE" 15;
  SEntry "ADSB_EMITTER_TYPE" 15 "ADSB_EMITTER_TYPE_SPACE";
  SConst "ADSB_EMITTER_TYPE_UNASSGINED3" 16;
  SEntry "ADSB_EMITTER_TYPE" 16 "ADSB_EMITTER_TYPE_UNASSGINED3";
  SConst "ADSB_EMITTER_TYPE_EMERGENCY_SURFACE" 17;
  SEntry "ADSB_EMITTER_TYPE" 17 "ADSB_EMITTER_TYPE_EMERGENCY_SURFACE";
  SConst "ADSB_EMITTER_TYPE_SERVICE_SURFACE" 18;
  SEntry "ADSB_EMITTER_TYPE" 18 "ADSB_EMITTER_TYPE_SERVICE_SURFACE";
  SConst "ADSB_EMITTER_TYPE_POINT_OBSTACLE" 19;
  SEntry "ADSB_EMITTER_TYPE" 19 "ADSB_EMITTER_TYPE_POINT_OBSTACLE";
  SConst "ADSB_EMITTER_TYPE_ENUM_END" 20;
  SEntry "ADSB_EMITTER_TYPE" 20 "ADSB_EMITTER_TYPE_ENUM_END";
  SEnum "ADSB_FLAGS";
  SConst "ADSB_FLAGS_VALID_COORDS" 1;
  SEntry "ADSB_FLAGS" 1 "ADSB_FLAGS_VALID_COORDS";
  SConst "ADSB_FLAGS_VALID_ALTITUDE" 2;
  SEntry "ADSB_FLAGS" 2 "ADSB_FLAGS_VALID_ALTITUDE";
  SConst "ADSB_FLAGS_VALID_HEADING" 4;
  SEntry "ADSB_FLAGS" 4 "ADSB_FLAGS_VALID_HEADING";
  SConst "ADSB_FLAGS_VALID_VELOCITY" 8;
  SEntry "ADSB_FLAGS" 8 "ADSB_FLAGS_VALID_VELOCITY";
  SConst "ADSB_FLAGS_VALID_CALLSIGN" 16;
  SEntry "ADSB_FLAGS" 16 "ADSB_FLAGS_VALID_CALLSIGN";
  SConst "ADSB_FLAGS_VALID_SQUAWK" 32;
  SEntry "ADSB_FLAGS" 32 "ADSB_FLAGS_VALID_SQUAWK";
  SConst "ADSB_FLAGS_SIMULATED" 64;
  SEntry "ADSB_FLAGS" 64 "ADSB_FLAGS_SIMULATED";
  SConst "ADSB_FLAGS_ENUM_END" 65;
  SEntry "ADSB_FLAGS" 65 "ADSB_FLAGS_ENUM_END"
].

(** <enums>; mavlink_utils/minimal_dialect.xml:4-1824. *)
Definition minimal_xml_enums : list xenum :=
[
  XEnum "MAV_AUTOPILOT"
    [XE "MAV_AUTOPILOT_GENERIC" (Some 0) [];
     XE "MAV_AUTOPILOT_RESERVED" (Some 1) [];
     XE "MAV_AUTOPILOT_SLUGS" (Some 2) [];
     XE "MAV_AUTOPILOT_ARDUPILOTMEGA" (Some 3) [];
     XE "MAV_AUTOPILOT_OPENPILOT" (Some 4) [];
     XE "MAV_AUTOPILOT_GENERIC_WAYPOINTS_ONLY" (Some 5) [];
     XE "MAV_AUTOPILOT_GENERIC_WAYPOINTS_AND_SIMPLE_NAVIGATION_ONLY" (Some 6) [];
     XE "MAV_AUTOPILOT_GENERIC_MISSION_FULL" (Some 7) [];
     XE "MAV_AUTOPILOT_INVALID" (Some 8) [];
     XE "MAV_AUTOPILOT_PPZ" (Some 9) [];
     XE "MAV_AUTOPILOT_UDB" (Some 10) [];
     XE "MAV_AUTOPILOT_FP" (Some 11) [];
     XE "MAV_AUTOPILOT_PX4" (Some 12) [];
     XE "MAV_AUTOPILOT_SMACCMPILOT" (Some 13) [];
     XE "MAV_AUTOPILOT_AUTOQUAD" (Some 14) [];
     XE "MAV_AUTOPILOT_ARMAZILA" (Some 15) [];
     XE "MAV_AUTOPILOT_AEROB" (Some 16) [];
     XE "MAV_AUTOPILOT_ASLUAV" (Some 17) []];
  XEnum "MAV_TYPE"
    [XE "MAV_TYPE_GENERIC" (Some 0) [];
     XE "MAV_TYPE_FIXED_WING" (Some 1) [];
     XE "MAV_TYPE_QUADROTOR" (Some 2) [];
     XE "MAV_TYPE_COAXIAL" (Some 3) [];
     XE "MAV_TYPE_HELICOPTER" (Some 4) [];
     XE "MAV_TYPE_ANTENNA_TRACKER" (Some 5) [];
     XE "MAV_TYPE_GCS" (Some 6) [];
     XE "MAV_TYPE_AIRSHIP" (Some 7) [];
     XE "MAV_TYPE_FREE_BALLOON" (Some 8) [];
     XE "MAV_TYPE_ROCKET" (Some 9) [];
     XE "MAV_TYPE_GROUND_ROVER" (Some 10) [];
     XE "MAV_TYPE_SURFACE_BOAT" (Some 11) [];
     XE "MAV_TYPE_SUBMARINE" (Some 12) [];
     XE "MAV_TYPE_HEXAROTOR" (Some 13) [];
     XE "MAV_TYPE_OCTOROTOR" (Some 14) [];
     XE "MAV_TYPE_TRICOPTER" (Some 15) [];
     XE "MAV_TYPE_FLAPPING_WING" (Some 16) [];
     XE "MAV_TYPE_KITE" (Some 17) [];
     XE "MAV_TYPE_ONBOARD_CONTROLLER" (Some 18) [];
     XE "MAV_TYPE_VTOL_DUOROTOR" (Some 19) [];
     XE "MAV_TYPE_VTOL_QUADROTOR" (Some 20) [];
     XE "MAV_TYPE_VTOL_TILTROTOR" (Some 21) [];
     XE "MAV_TYPE_VTOL_RESERVED2" (Some 22) [];
     XE "MAV_TYPE_VTOL_RESERVED3" (Some 23) [];
     XE "MAV_TYPE_VTOL_RESERVED4" (Some 24) [];
     XE "MAV_TYPE_VTOL_RESERVED5" (Some 25) [];
     XE "MAV_TYPE_GIMBAL" (Some 26) [];
     XE "MAV_TYPE_ADSB" (Some 27) []];
  XEnum "FIRMWARE_VERSION_TYPE"
    [XE "FIRMWARE_VERSION_TYPE_DEV" (Some 0) [];
     XE "FIRMWARE_VERSION_TYPE_ALPHA" (Some 64) [];
     XE "FIRMWARE_VERSION_TYPE_BETA" (Some 128) [];
     XE "FIRMWARE_VERSION_TYPE_RC" (Some 192) [];
     XE "FIRMWARE_VERSION_TYPE_OFFICIAL" (Some 255) []];
  XEnum "MAV_MODE_FLAG"
    [XE "MAV_MODE_FLAG_SAFETY_ARMED" (Some 128) [];
     XE "MAV_MODE_FLAG_MANUAL_INPUT_ENABLED" (Some 64) [];
     XE "MAV_MODE_FLAG_HIL_ENABLED" (Some 32) [];
     XE "MAV_MODE_FLAG_STABILIZE_ENABLED" (Some 16) [];
     XE "MAV_MODE_FLAG_GUIDED_ENABLED" (Some 8) [];
     XE "MAV_MODE_FLAG_AUTO_ENABLED" (Some 4) [];
     XE "MAV_MODE_FLAG_TEST_ENABLED" (Some 2) [];
     XE "MAV_MODE_FLAG_CUSTOM_MODE_ENABLED" (Some 1) []];
  XEnum "MAV_MODE_FLAG_DECODE_POSITION"
    [XE "MAV_MODE_FLAG_DECODE_POSITION_SAFETY" (Some 128) [];
     XE "MAV_MODE_FLAG_DECODE_POSITION_MANUAL" (Some 64) [];
     XE "MAV_MODE_FLAG_DECODE_POSITION_HIL" (Some 32) [];
     XE "MAV_MODE_FLAG_DECODE_POSITION_STABILIZE" (Some 16) [];
     XE "MAV_MODE_FLAG_DECODE_POSITION_GUIDED" (Some 8) [];
     XE "MAV_MODE_FLAG_DECODE_POSITION_AUTO" (Some 4) [];
     XE "MAV_MODE_FLAG_DECODE_POSITION_TEST" (Some 2) [];
     XE "MAV_MODE_FLAG_DECODE_POSITION_CUSTOM_MODE" (Some 1) []];
  XEnum "MAV_GOTO"
    [XE "MAV_GOTO_DO_HOLD" (Some 0) [];
     XE "MAV_GOTO_DO_CONTINUE" (Some 1) [];
     XE "MAV_GOTO_HOLD_AT_CURRENT_POSITION" (Some 2) [];
     XE "MAV_GOTO_HOLD_AT_SPECIFIED_POSITION" (Some 3) []];
  XEnum "MAV_MODE"
    [XE "MAV_MODE_PREFLIGHT" (Some 0) [];
     XE "MAV_MODE_STOP" (Some 32) [];
     XE "MAV_MODE_STABILIZE_DISARMED" (Some 80) [];
     XE "MAV_MODE_STABILIZE_ARMED" (Some 208) [];
     XE "MAV_MODE_MANUAL_DISARMED" (Some 64) [];
     XE "MAV_MODE_MANUAL_ARMED" (Some 192) [];
     XE "MAV_MODE_GUIDED_DISARMED" (Some 88) [];
     XE "MAV_MODE_GUIDED_ARMED" (Some 216) [];
     XE "MAV_MODE_AUTO_DISARMED" (Some 92) [];
     XE "MAV_MODE_AUTO_ARMED" (Some 220) [];
     XE "MAV_MODE_TEST_DISARMED" (Some 66) [];
     XE "MAV_MODE_TEST_ARMED" (Some 194) []];
  XEnum "MAV_STATE"
    [XE "MAV_STATE_UNINIT" (Some 0) [];
     XE "MAV_STATE_BOOT" None [];
     XE "MAV_STATE_CALIBRATING" None [];
     XE "MAV_STATE_STANDBY" None [];
     XE "MAV_STATE_ACTIVE" None [];
     XE "MAV_STATE_CRITICAL" None [];
     XE "MAV_STATE_EMERGENCY" None [];
     XE "MAV_STATE_POWEROFF" None []];
  XEnum "MAV_COMPONENT"
    [XE "MAV_COMP_ID_ALL" (Some 0) [];
     XE "MAV_COMP_ID_GPS" (Some 220) [];
     XE "MAV_COMP_ID_MISSIONPLANNER" (Some 190) [];
     XE "MAV_COMP_ID_PATHPLANNER" (Some 195) [];
     XE "MAV_COMP_ID_MAPPER" (Some 180) [];
     XE "MAV_COMP_ID_CAMERA" (Some 100) [];
     XE "MAV_COMP_ID_IMU" (Some 200) [];
     XE "MAV_COMP_ID_IMU_2" (Some 201) [];
     XE "MAV_COMP_ID_IMU_3" (Some 202) [];
     XE "MAV_COMP_ID_UDP_BRIDGE" (Some 240) [];
     XE "MAV_COMP_ID_UART_BRIDGE" (Some 241) [];
     XE "MAV_COMP_ID_SYSTEM_CONTROL" (Some 250) [];
     XE "MAV_COMP_ID_SERVO1" (Some 140) [];
     XE "MAV_COMP_ID_SERVO2" (Some 141) [];
     XE "MAV_COMP_ID_SERVO3" (Some 142) [];
     XE "MAV_COMP_ID_SERVO4" (Some 143) [];
     XE "MAV_COMP_ID_SERVO5" (Some 144) [];
     XE "MAV_COMP_ID_SERVO6" (Some 145) [];
     XE "MAV_COMP_ID_SERVO7" (Some 146) [];
     XE "MAV_COMP_ID_SERVO8" (Some 147) [];
     XE "MAV_COMP_ID_SERVO9" (Some 148) [];
     XE "MAV_COMP_ID_SERVO10" (Some 149) [];
     XE "MAV_COMP_ID_SERVO11" (Some 150) [];
     XE "MAV_COMP_ID_SERVO12" (Some 151) [];
     XE "MAV_COMP_ID_SERVO13" (Some 152) [];
     XE "MAV_COMP_ID_SERVO14" (Some 153) [];
     XE "MAV_COMP_ID_GIMBAL" (Some 154) [];
     XE "MAV_COMP_ID_LOG" (Some 155) [];
     XE "MAV_COMP_ID_ADSB" (Some 156) []];
  XEnum "MAV_SYS_STATUS_SENSOR"
    [XE "MAV_SYS_STATUS_SENSOR_3D_GYRO" (Some 1) [];
     XE "MAV_SYS_STATUS_SENSOR_3D_ACCEL" (Some 2) [];
     XE "MAV_SYS_STATUS_SENSOR_3D_MAG" (Some 4) [];
     XE "MAV_SYS_STATUS_SENSOR_ABSOLUTE_PRESSURE" (Some 8) [];
     XE "MAV_SYS_STATUS_SENSOR_DIFFERENTIAL_PRESSURE" (Some 16) [];
     XE "MAV_SYS_STATUS_SENSOR_GPS" (Some 32) [];
     XE "MAV_SYS_STATUS_SENSOR_OPTICAL_FLOW" (Some 64) [];
     XE "MAV_SYS_STATUS_SENSOR_VISION_POSITION" (Some 128) [];
     XE "MAV_SYS_STATUS_SENSOR_LASER_POSITION" (Some 256) [];
     XE "MAV_SYS_STATUS_SENSOR_EXTERNAL_GROUND_TRUTH" (Some 512) [];
     XE "MAV_SYS_STATUS_SENSOR_ANGULAR_RATE_CONTROL" (Some 1024) [];
     XE "MAV_SYS_STATUS_SENSOR_ATTITUDE_STABILIZATION" (Some 2048) [];
     XE "MAV_SYS_STATUS_SENSOR_YAW_POSITION" (Some 4096) [];
     XE "MAV_SYS_STATUS_SENSOR_Z_ALTITUDE_CONTROL" (Some 8192) [];
     XE "MAV_SYS_STATUS_SENSOR_XY_POSITION_CONTROL" (Some 16384) [];
     XE "MAV_SYS_STATUS_SENSOR_MOTOR_OUTPUTS" (Some 32768) [];
     XE "MAV_SYS_STATUS_SENSOR_RC_RECEIVER" (Some 65536) [];
     XE "MAV_SYS_STATUS_SENSOR_3D_GYRO2" (Some 131072) [];
     XE "MAV_SYS_STATUS_SENSOR_3D_ACCEL2" (Some 262144) [];
     XE "MAV_SYS_STATUS_SENSOR_3D_MAG2" (Some 524288) [];
     XE "MAV_SYS_STATUS_GEOFENCE" (Some 1048576) [];
     XE "MAV_SYS_STATUS_AHRS" (Some 2097152) [];
     XE "MAV_SYS_STATUS_TERRAIN" (Some 4194304) []];
  XEnum "MAV_FRAME"
    [XE "MAV_FRAME_GLOBAL" (Some 0) [];
     XE "MAV_FRAME_LOCAL_NED" (Some 1) [];
     XE "MAV_FRAME_MISSION" (Some 2) [];
     XE "MAV_FRAME_GLOBAL_RELATIVE_ALT" (Some 3) [];
     XE "MAV_FRAME_LOCAL_ENU" (Some 4) [];
     XE "MAV_FRAME_GLOBAL_INT" (Some 5) [];
     XE "MAV_FRAME_GLOBAL_RELATIVE_ALT_INT" (Some 6) [];
     XE "MAV_FRAME_LOCAL_OFFSET_NED" (Some 7) [];
     XE "MAV_FRAME_BODY_NED" (Some 8) [];
     XE "MAV_FRAME_BODY_OFFSET_NED" (Some 9) [];
     XE "MAV_FRAME_GLOBAL_TERRAIN_ALT" (Some 10) [];
     XE "MAV_FRAME_GLOBAL_TERRAIN_ALT_INT" (Some 11) [];
     XE "MAV_FRAME_HCMISSION" (Some 12) []];
  XEnum "MAVLINK_DATA_STREAM_TYPE"
    [XE "MAVLINK_DATA_STREAM_IMG_JPEG" None [];
     XE "MAVLINK_DATA_STREAM_IMG_BMP" None [];
     XE "MAVLINK_DATA_STREAM_IMG_RAW8U" None [];
     XE "MAVLINK_DATA_STREAM_IMG_RAW32U" None [];
     XE "MAVLINK_DATA_STREAM_IMG_PGM" None [];
     XE "MAVLINK_DATA_STREAM_IMG_PNG" None []];
  XEnum "FENCE_ACTION"
    [XE "FENCE_ACTION_NONE" (Some 0) [];
     XE "FENCE_ACTION_GUIDED" (Some 1) [];
     XE "FENCE_ACTION_REPORT" (Some 2) [];
     XE "FENCE_ACTION_GUIDED_THR_PASS" (Some 3) []];
  XEnum "FENCE_BREACH"
    [XE "FENCE_BREACH_NONE" (Some 0) [];
     XE "FENCE_BREACH_MINALT" (Some 1) [];
     XE "FENCE_BREACH_MAXALT" (Some 2) [];
     XE "FENCE_BREACH_BOUNDARY" (Some 3) []];
  XEnum "MAV_MOUNT_MODE"
    [XE "MAV_MOUNT_MODE_RETRACT" (Some 0) [];
     XE "MAV_MOUNT_MODE_NEUTRAL" (Some 1) [];
     XE "MAV_MOUNT_MODE_MAVLINK_TARGETING" (Some 2) [];
     XE "MAV_MOUNT_MODE_RC_TARGETING" (Some 3) [];
     XE "MAV_MOUNT_MODE_GPS_POINT" (Some 4) []];
  XEnum "MAV_CMD"
    [XE "MAV_CMD_NAV_WAYPOINT" (Some 16) [1; 2; 3; 4; 5; 6; 7];
     XE "MAV_CMD_NAV_LOITER_UNLIM" (Some 17) [1; 2; 3; 4; 5; 6; 7];
     XE "MAV_CMD_NAV_LOITER_TURNS" (Some 18) [1; 2; 3; 4; 5; 6; 7];
     XE "MAV_CMD_NAV_LOITER_TIME" (Some 19) [1; 2; 3; 4; 5; 6; 7];
     XE "MAV_CMD_NAV_RETURN_TO_LAUNCH" (Some 20) [1; 2; 3; 4; 5; 6; 7];
     XE "MAV_CMD_NAV_LAND" (Some 21) [1; 2; 3; 4; 5; 6; 7];
     XE "MAV_CMD_NAV_SAFETY_REGION" (Some 22) [1; 2; 3; 4; 5; 6; 7];
     XE "MAV_CMD_NAV_LAND_LOCAL" (Some 23) [1; 2; 3; 4; 5; 6; 7];
     XE "MAV_CMD_NAV_TAKEOFF_LOCAL" (Some 24) [1; 2; 3; 4; 5; 6; 7];
     XE "MAV_CMD_NAV_FOLLOW" (Some 25) [1; 2; 3; 4; 5; 6; 7];
     XE "MAV_CMD_NAV_CONTINUE_AND_CHANGE_ALT" (Some 30) [1; 2; 3; 4; 5; 6; 7];
     XE "MAV_CMD_NAV_LOITER_TO_ALT" (Some 31) [1; 2; 3; 4; 5; 6; 7];
     XE "MAV_CMD_NAV_ROI" (Some 80) [1; 2; 3; 4; 5; 6; 7];
     XE "MAV_CMD_NAV_PATHPLANNING" (Some 81) [1; 2; 3; 4; 5; 6; 7];
     XE "MAV_CMD_NAV_SPLINE_WAYPOINT" (Some 82) [1; 2; 3; 4; 5; 6; 7];
     XE "MAV_CMD_NAV_VTOL_TAKEOFF" (Some 84) [1; 2; 3; 4; 5; 6; 7];
     XE "MAV_CMD_NAV_VTOL_LAND" (Some 85) [1; 2; 3; 4; 5; 6; 7];
     XE "MAV_CMD_NAV_GUIDED_ENABLE" (Some 92) [1; 2; 3; 4; 5; 6; 7];
     XE "MAV_CMD_NAV_LAST" (Some 95) [1; 2; 3; 4; 5; 6; 7];
     XE "MAV_CMD_CONDITION_DELAY" (Some 112) [1; 2; 3; 4; 5; 6; 7];
     XE "MAV_CMD_CONDITION_CHANGE_ALT" (Some 113) [1; 2; 3; 4; 5; 6; 7];
     XE "MAV_CMD_CONDITION_DISTANCE" (Some 114) [1; 2; 3; 4; 5; 6; 7];
     XE "MAV_CMD_CONDITION_YAW" (Some 115) [1; 2; 3; 4; 5; 6; 7];
     XE "MAV_CMD_CONDITION_LAST" (Some 159) [1; 2; 3; 4; 5; 6; 7];
     XE "MAV_CMD_DO_SET_MODE" (Some 176) [1; 2; 3; 4; 5; 6; 7];
     XE "MAV_CMD_DO_JUMP" (Some 177) [1; 2; 3; 4; 5; 6; 7];
     XE "MAV_CMD_DO_CHANGE_SPEED" (Some 178) [1; 2; 3; 4; 5; 6; 7];
     XE "MAV_CMD_DO_SET_HOME" (Some 179) [1; 2; 3; 4; 5; 6; 7];
     XE "MAV_CMD_DO_SET_PARAMETER" (Some 180) [1; 2; 3; 4; 5; 6; 7];
     XE "MAV_CMD_DO_SET_RELAY" (Some 181) [1; 2; 3; 4; 5; 6; 7];
     XE "MAV_CMD_DO_REPEAT_RELAY" (Some 182) [1; 2; 3; 4; 5; 6; 7];
     XE "MAV_CMD_DO_SET_SERVO" (Some 183) [1; 2; 3; 4; 5; 6; 7];
     XE "MAV_CMD_DO_REPEAT_SERVO" (Some 184) [1; 2; 3; 4; 5; 6; 7];
     XE "MAV_CMD_DO_FLIGHTTERMINATION" (Some 185) [1; 2; 3; 4; 5; 6; 7];
     XE "MAV_CMD_DO_LAND_START" (Some 189) [1; 2; 3; 4; 5; 6; 7];
     XE "MAV_CMD_DO_RALLY_LAND" (Some 190) [1; 2; 3; 4; 5; 6; 7];
     XE "MAV_CMD_DO_GO_AROUND" (Some 191) [1; 2; 3; 4; 5; 6; 7];
     XE "MAV_CMD_DO_CONTROL_VIDEO" (Some 200) [1; 2; 3; 4; 5; 6; 7];
     XE "MAV_CMD_DO_SET_ROI" (Some 201) [1; 2; 3; 4; 5; 6; 7];
     XE "MAV_CMD_DO_DIGICAM_CONFIGURE" (Some 202) [1; 2; 3; 4; 5; 6; 7];
     XE "MAV_CMD_DO_DIGICAM_CONTROL" (Some 203) [1; 2; 3; 4; 5; 6; 7];
     XE "MAV_CMD_DO_MOUNT_CONFIGURE" (Some 204) [1; 2; 3; 4; 5; 6; 7];
     XE "MAV_CMD_DO_MOUNT_CONTROL" (Some 205) [1; 2; 3; 4; 5; 6; 7];
     XE "MAV_CMD_DO_SET_CAM_TRIGG_DIST" (Some 206) [1; 2; 3; 4; 5; 6; 7];
     XE "MAV_CMD_DO_FENCE_ENABLE" (Some 207) [1; 2; 3; 4; 5; 6; 7];
     XE "MAV_CMD_DO_PARACHUTE" (Some 208) [1; 2; 3; 4; 5; 6; 7];
     XE "MAV_CMD_DO_INVERTED_FLIGHT" (Some 210) [1; 2; 3; 4; 5; 6; 7];
     XE "MAV_CMD_DO_MOUNT_CONTROL_QUAT" (Some 220) [1; 2; 3; 4; 5; 6; 7];
     XE "MAV_CMD_DO_GUIDED_MASTER" (Some 221) [1; 2; 3; 4; 5; 6; 7];
     XE "MAV_CMD_DO_GUIDED_LIMITS" (Some 222) [1; 2; 3; 4; 5; 6; 7];
     XE "MAV_CMD_DO_LAST" (Some 240) [1; 2; 3; 4; 5; 6; 7];
     XE "MAV_CMD_PREFLIGHT_CALIBRATION" (Some 241) [1; 2; 3; 4; 5; 6; 7];
     XE "MAV_CMD_PREFLIGHT_SET_SENSOR_OFFSETS" (Some 242) [1; 2; 3; 4; 5; 6; 7];
     XE "MAV_CMD_PREFLIGHT_UAVCAN" (Some 243) [1; 2; 3; 4; 5; 6; 7];
     XE "MAV_CMD_PREFLIGHT_STORAGE" (Some 245) [1; 2; 3; 4; 5; 6; 7];
     XE "MAV_CMD_PREFLIGHT_REBOOT_SHUTDOWN" (Some 246) [1; 2; 3; 4; 5; 6; 7];
     XE "MAV_CMD_OVERRIDE_GOTO" (Some 252) [1; 2; 3; 4; 5; 6; 7];
     XE "MAV_CMD_MISSION_START" (Some 300) [1; 2];
     XE "MAV_CMD_COMPONENT_ARM_DISARM" (Some 400) [1];
     XE "MAV_CMD_GET_HOME_POSITION" (Some 410) [1; 2; 3; 4; 5; 6; 7];
     XE "MAV_CMD_START_RX_PAIR" (Some 500) [1; 2];
     XE "MAV_CMD_GET_MESSAGE_INTERVAL" (Some 510) [1];
     XE "MAV_CMD_SET_MESSAGE_INTERVAL" (Some 511) [1; 2];
     XE "MAV_CMD_REQUEST_AUTOPILOT_CAPABILITIES" (Some 520) [1; 2];
     XE "MAV_CMD_IMAGE_START_CAPTURE" (Some 2000) [1; 2; 3];
     XE "MAV_CMD_IMAGE_STOP_CAPTURE" (Some 2001) [1; 2];
     XE "MAV_CMD_DO_TRIGGER_CONTROL" (Some 2003) [1; 2; 3];
     XE "MAV_CMD_VIDEO_START_CAPTURE" (Some 2500) [1; 2; 3];
     XE "MAV_CMD_VIDEO_STOP_CAPTURE" (Some 2501) [1; 2];
     XE "MAV_CMD_PANORAMA_CREATE" (Some 2800) [1; 2; 3; 4];
     XE "MAV_CMD_DO_VTOL_TRANSITION" (Some 3000) [1];
     XE "MAV_CMD_PAYLOAD_PREPARE_DEPLOY" (Some 30001) [1; 2; 3; 4; 5; 6; 7];
     XE "MAV_CMD_PAYLOAD_CONTROL_DEPLOY" (Some 30002) [1; 2; 3; 4; 5; 6; 7]];
  XEnum "MAV_DATA_STREAM"
    [XE "MAV_DATA_STREAM_ALL" (Some 0) [];
     XE "MAV_DATA_STREAM_RAW_SENSORS" (Some 1) [];
     XE "MAV_DATA_STREAM_EXTENDED_STATUS" (Some 2) [];
     XE "MAV_DATA_STREAM_RC_CHANNELS" (Some 3) [];
     XE "MAV_DATA_STREAM_RAW_CONTROLLER" (Some 4) [];
     XE "MAV_DATA_STREAM_POSITION" (Some 6) [];
     XE "MAV_DATA_STREAM_EXTRA1" (Some 10) [];
     XE "MAV_DATA_STREAM_EXTRA2" (Some 11) [];
     XE "MAV_DATA_STREAM_EXTRA3" (Some 12) []];
  XEnum "MAV_ROI"
    [XE "MAV_ROI_NONE" (Some 0) [];
     XE "MAV_ROI_WPNEXT" (Some 1) [];
     XE "MAV_ROI_WPINDEX" (Some 2) [];
     XE "MAV_ROI_LOCATION" (Some 3) [];
     XE "MAV_ROI_TARGET" (Some 4) []];
  XEnum "MAV_CMD_ACK"
    [XE "MAV_CMD_ACK_OK" None [];
     XE "MAV_CMD_ACK_ERR_FAIL" None [];
     XE "MAV_CMD_ACK_ERR_ACCESS_DENIED" None [];
     XE "MAV_CMD_ACK_ERR_NOT_SUPPORTED" None [];
     XE "MAV_CMD_ACK_ERR_COORDINATE_FRAME_NOT_SUPPORTED" None [];
     XE "MAV_CMD_ACK_ERR_COORDINATES_OUT_OF_RANGE" None [];
     XE "MAV_CMD_ACK_ERR_X_LAT_OUT_OF_RANGE" None [];
     XE "MAV_CMD_ACK_ERR_Y_LON_OUT_OF_RANGE" None [];
     XE "MAV_CMD_ACK_ERR_Z_ALT_OUT_OF_RANGE" None []];
  XEnum "MAV_PARAM_TYPE"
    [XE "MAV_PARAM_TYPE_UINT8" (Some 1) [];
     XE "MAV_PARAM_TYPE_INT8" (Some 2) [];
     XE "MAV_PARAM_TYPE_UINT16" (Some 3) [];
     XE "MAV_PARAM_TYPE_INT16" (Some 4) [];
     XE "MAV_PARAM_TYPE_UINT32" (Some 5) [];
     XE "MAV_PARAM_TYPE_INT32" (Some 6) [];
     XE "MAV_PARAM_TYPE_UINT64" (Some 7) [];
     XE "MAV_PARAM_TYPE_INT64" (Some 8) [];
     XE "MAV_PARAM_TYPE_REAL32" (Some 9) [];
     XE "MAV_PARAM_TYPE_REAL64" (Some 10) []];
  XEnum "MAV_RESULT"
    [XE "MAV_RESULT_ACCEPTED" (Some 0) [];
     XE "MAV_RESULT_TEMPORARILY_REJECTED" (Some 1) [];
     XE "MAV_RESULT_DENIED" (Some 2) [];
     XE "MAV_RESULT_UNSUPPORTED" (Some 3) [];
     XE "MAV_RESULT_FAILED" (Some 4) []];
  XEnum "MAV_MISSION_RESULT"
    [XE "MAV_MISSION_ACCEPTED" (Some 0) [];
     XE "MAV_MISSION_ERROR" (Some 1) [];
     XE "MAV_MISSION_UNSUPPORTED_FRAME" (Some 2) [];
     XE "MAV_MISSION_UNSUPPORTED" (Some 3) [];
     XE "MAV_MISSION_NO_SPACE" (Some 4) [];
     XE "MAV_MISSION_INVALID" (Some 5) [];
     XE "MAV_MISSION_INVALID_PARAM1" (Some 6) [];
     XE "MAV_MISSION_INVALID_PARAM2" (Some 7) [];
     XE "MAV_MISSION_INVALID_PARAM3" (Some 8) [];
     XE "MAV_MISSION_INVALID_PARAM4" (Some 9) [];
     XE "MAV_MISSION_INVALID_PARAM5_X" (Some 10) [];
     XE "MAV_MISSION_INVALID_PARAM6_Y" (Some 11) [];
     XE "MAV_MISSION_INVALID_PARAM7" (Some 12) [];
     XE "MAV_MISSION_INVALID_SEQUENCE" (Some 13) [];
     XE "MAV_MISSION_DENIED" (Some 14) []];
  XEnum "MAV_SEVERITY"
    [XE "MAV_SEVERITY_EMERGENCY" (Some 0) [];
     XE "MAV_SEVERITY_ALERT" (Some 1) [];
     XE "MAV_SEVERITY_CRITICAL" (Some 2) [];
     XE "MAV_SEVERITY_ERROR" (Some 3) [];
     XE "MAV_SEVERITY_WARNING" (Some 4) [];
     XE "MAV_SEVERITY_NOTICE" (Some 5) [];
     XE "MAV_SEVERITY_INFO" (Some 6) [];
     XE "MAV_SEVERITY_DEBUG" (Some 7) []];
  XEnum "MAV_POWER_STATUS"
    [XE "MAV_POWER_STATUS_BRICK_VALID" (Some 1) [];
     XE "MAV_POWER_STATUS_SERVO_VALID" (Some 2) [];
     XE "MAV_POWER_STATUS_USB_CONNECTED" (Some 4) [];
     XE "MAV_POWER_STATUS_PERIPH_OVERCURRENT" (Some 8) [];
     XE "MAV_POWER_STATUS_PERIPH_HIPOWER_OVERCURRENT" (Some 16) [];
     XE "MAV_POWER_STATUS_CHANGED" (Some 32) []];
  XEnum "SERIAL_CONTROL_DEV"
    [XE "SERIAL_CONTROL_DEV_TELEM1" (Some 0) [];
     XE "SERIAL_CONTROL_DEV_TELEM2" (Some 1) [];
     XE "SERIAL_CONTROL_DEV_GPS1" (Some 2) [];
     XE "SERIAL_CONTROL_DEV_GPS2" (Some 3) [];
     XE "SERIAL_CONTROL_DEV_SHELL" (Some 10) []];
  XEnum "SERIAL_CONTROL_FLAG"
    [XE "SERIAL_CONTROL_FLAG_REPLY" (Some 1) [];
     XE "SERIAL_CONTROL_FLAG_RESPOND" (Some 2) [];
     XE "SERIAL_CONTROL_FLAG_EXCLUSIVE" (Some 4) [];
     XE "SERIAL_CONTROL_FLAG_BLOCKING" (Some 8) [];
     XE "SERIAL_CONTROL_FLAG_MULTI" (Some 16) []];
  XEnum "MAV_DISTANCE_SENSOR"
    [XE "MAV_DISTANCE_SENSOR_LASER" (Some 0) [];
     XE "MAV_DISTANCE_SENSOR_ULTRASOUND" (Some 1) [];
     XE "MAV_DISTANCE_SENSOR_INFRARED" (Some 2) []];
  XEnum "MAV_SENSOR_ORIENTATION"
    [XE "MAV_SENSOR_ROTATION_NONE" (Some 0) [];
     XE "MAV_SENSOR_ROTATION_YAW_45" (Some 1) [];
     XE "MAV_SENSOR_ROTATION_YAW_90" (Some 2) [];
     XE "MAV_SENSOR_ROTATION_YAW_135" (Some 3) [];
     XE "MAV_SENSOR_ROTATION_YAW_180" (Some 4) [];
     XE "MAV_SENSOR_ROTATION_YAW_225" (Some 5) [];
     XE "MAV_SENSOR_ROTATION_YAW_270" (Some 6) [];
     XE "MAV_SENSOR_ROTATION_YAW_315" (Some 7) [];
     XE "MAV_SENSOR_ROTATION_ROLL_180" (Some 8) [];
     XE "MAV_SENSOR_ROTATION_ROLL_180_YAW_45" (Some 9) [];
     XE "MAV_SENSOR_ROTATION_ROLL_180_YAW_90" (Some 10) [];
     XE "MAV_SENSOR_ROTATION_ROLL_180_YAW_135" (Some 11) [];
     XE "MAV_SENSOR_ROTATION_PITCH_180" (Some 12) [];
     XE "MAV_SENSOR_ROTATION_ROLL_180_YAW_225" (Some 13) [];
     XE "MAV_SENSOR_ROTATION_ROLL_180_YAW_270" (Some 14) [];
     XE "MAV_SENSOR_ROTATION_ROLL_180_YAW_315" (Some 15) [];
     XE "MAV_SENSOR_ROTATION_ROLL_90" (Some 16) [];
     XE "MAV_SENSOR_ROTATION_ROLL_90_YAW_45" (Some 17) [];
     XE "MAV_SENSOR_ROTATION_ROLL_90_YAW_90" (Some 18) [];
     XE "MAV_SENSOR_ROTATION_ROLL_90_YAW_135" (Some 19) [];
     XE "MAV_SENSOR_ROTATION_ROLL_270" (Some 20) [];
     XE "MAV_SENSOR_ROTATION_ROLL_270_YAW_45" (Some 21) [];
     XE "MAV_SENSOR_ROTATION_ROLL_270_YAW_90" (Some 22) [];
     XE "MAV_SENSOR_ROTATION_ROLL_270_YAW_135" (Some 23) [];
     XE "MAV_SENSOR_ROTATION_PITCH_90" (Some 24) [];
     XE "MAV_SENSOR_ROTATION_PITCH_270" (Some 25) [];
     XE "MAV_SENSOR_ROTATION_PITCH_180_YAW_90" (Some 26) [];
     XE "MAV_SENSOR_ROTATION_PITCH_180_YAW_270" (Some 27) [];
     XE "MAV_SENSOR_ROTATION_ROLL_90_PITCH_90" (Some 28) [];
     XE "MAV_SENSOR_ROTATION_ROLL_180_PITCH_90" (Some 29) [];
     XE "MAV_SENSOR_ROTATION_ROLL_270_PITCH_90" (Some 30) [];
     XE "MAV_SENSOR_ROTATION_ROLL_90_PITCH_180" (Some 31) [];
     XE "MAV_SENSOR_ROTATION_ROLL_270_PITCH_180" (Some 32) [];
     XE "MAV_SENSOR_ROTATION_ROLL_90_PITCH_270" (Some 33) [];
     XE "MAV_SENSOR_ROTATION_ROLL_180_PITCH_270" (Some 34) [];
     XE "MAV_SENSOR_ROTATION_ROLL_270_PITCH_270" (Some 35) [];
     XE "MAV_SENSOR_ROTATION_ROLL_90_PITCH_180_YAW_90" (Some 36) [];
     XE "MAV_SENSOR_ROTATION_ROLL_90_YAW_270" (Some 37) [];
     XE "MAV_SENSOR_ROTATION_ROLL_315_PITCH_315_YAW_315" (Some 38) []];
  XEnum "MAV_PROTOCOL_CAPABILITY"
    [XE "MAV_PROTOCOL_CAPABILITY_MISSION_FLOAT" (Some 1) [];
     XE "MAV_PROTOCOL_CAPABILITY_PARAM_FLOAT" (Some 2) [];
     XE "MAV_PROTOCOL_CAPABILITY_MISSION_INT" (Some 4) [];
     XE "MAV_PROTOCOL_CAPABILITY_COMMAND_INT" (Some 8) [];
     XE "MAV_PROTOCOL_CAPABILITY_PARAM_UNION" (Some 16) [];
     XE "MAV_PROTOCOL_CAPABILITY_FTP" (Some 32) [];
     XE "MAV_PROTOCOL_CAPABILITY_SET_ATTITUDE_TARGET" (Some 64) [];
     XE "MAV_PROTOCOL_CAPABILITY_SET_POSITION_TARGET_LOCAL_NED" (Some 128) [];
     XE "MAV_PROTOCOL_CAPABILITY_SET_POSITION_TARGET_GLOBAL_INT" (Some 256) [];
     XE "MAV_PROTOCOL_CAPABILITY_TERRAIN" (Some 512) [];
     XE "MAV_PROTOCOL_CAPABILITY_SET_ACTUATOR_TARGET" (Some 1024) [];
     XE "MAV_PROTOCOL_CAPABILITY_FLIGHT_TERMINATION" (Some 2048) [];
     XE "MAV_PROTOCOL_CAPABILITY_COMPASS_CALIBRATION" (Some 4096) []];
  XEnum "MAV_ESTIMATOR_TYPE"
    [XE "MAV_ESTIMATOR_TYPE_NAIVE" (Some 1) [];
     XE "MAV_ESTIMATOR_TYPE_VISION" (Some 2) [];
     XE "MAV_ESTIMATOR_TYPE_VIO" (Some 3) [];
     XE "MAV_ESTIMATOR_TYPE_GPS" (Some 4) [];
     XE "MAV_ESTIMATOR_TYPE_GPS_INS" (Some 5) []];
  XEnum "MAV_BATTERY_TYPE"
    [XE "MAV_BATTERY_TYPE_UNKNOWN" (Some 0) [];
     XE "MAV_BATTERY_TYPE_LIPO" (Some 1) [];
     XE "MAV_BATTERY_TYPE_LIFE" (Some 2) [];
     XE "MAV_BATTERY_TYPE_LION" (Some 3) [];
     XE "MAV_BATTERY_TYPE_NIMH" (Some 4) []];
  XEnum "MAV_BATTERY_FUNCTION"
    [XE "MAV_BATTERY_FUNCTION_UNKNOWN" (Some 0) [];
     XE "MAV_BATTERY_FUNCTION_ALL" (Some 1) [];
     XE "MAV_BATTERY_FUNCTION_PROPULSION" (Some 2) [];
     XE "MAV_BATTERY_FUNCTION_AVIONICS" (Some 3) [];
     XE "MAV_BATTERY_TYPE_PAYLOAD" (Some 4) []];
  XEnum "MAV_VTOL_STATE"
    [XE "MAV_VTOL_STATE_UNDEFINED" (Some 0) [];
     XE "MAV_VTOL_STATE_TRANSITION_TO_FW" (Some 1) [];
     XE "MAV_VTOL_STATE_TRANSITION_TO_MC" (Some 2) [];
     XE "MAV_VTOL_STATE_MC" (Some 3) [];
     XE "MAV_VTOL_STATE_FW" (Some 4) []];
  XEnum "MAV_LANDED_STATE"
    [XE "MAV_LANDED_STATE_UNDEFINED" (Some 0) [];
     XE "MAV_LANDED_STATE_ON_GROUND" (Some 1) [];
     XE "MAV_LANDED_STATE_IN_AIR" (Some 2) []];
  XEnum "ADSB_ALTITUDE_TYPE"
    [XE "ADSB_ALTITUDE_TYPE_PRESSURE_QNH" (Some 0) [];
     XE "ADSB_ALTITUDE_TYPE_GEOMETRIC" (Some 1) []];
  XEnum "ADSB_EMITTER_TYPE"
    [XE "ADSB_EMITTER_TYPE_NO_INFO" (Some 0) [];
     XE "ADSB_EMITTER_TYPE_LIGHT" (Some 1) [];
     XE "ADSB_EMITTER_TYPE_SMALL" (Some 2) [];
     XE "ADSB_EMITTER_TYPE_LARGE" (Some 3) [];
     XE "ADSB_EMITTER_TYPE_HIGH_VORTEX_LARGE" (Some 4) [];
     XE "ADSB_EMITTER_TYPE_HEAVY" (Some 5) [];
     XE "ADSB_EMITTER_TYPE_HIGHLY_MANUV" (Some 6) [];
     XE "ADSB_EMITTER_TYPE_ROTOCRAFT" (Some 7) [];
     XE "ADSB_EMITTER_TYPE_UNASSIGNED" (Some 8) [];
     XE "ADSB_EMITTER_TYPE_GLIDER" (Some 9) [];
     XE "ADSB_EMITTER_TYPE_LIGHTER_AIR" (Some 10) [];
     XE "ADSB_EMITTER_TYPE_PARACHUTE" (Some 11) [];
     XE "ADSB_EMITTER_TYPE_ULTRA_LIGHT" (Some 12) [];
     XE "ADSB_EMITTER_TYPE_UNASSIGNED2" (Some 13) [];
     XE "ADSB_EMITTER_TYPE_UAV" (Some 14) [];
     XE "ADSB_EMITTER_TYPE_SPACE" (Some 15) [];
     XE "ADSB_EMITTER_TYPE_UNASSGINED3" (Some 16) [];
     XE "ADSB_EMITTER_TYPE_EMERGENCY_SURFACE" (Some 17) [];
     XE "ADSB_EMITTER_TYPE_SERVICE_SURFACE" (Some 18) [];
     XE "ADSB_EMITTER_TYPE_POINT_OBSTACLE" (Some 19) []];
  XEnum "ADSB_FLAGS"
    [XE "ADSB_FLAGS_VALID_COORDS" (Some 1) [];
     XE "ADSB_FLAGS_VALID_ALTITUDE" (Some 2) [];
     XE "ADSB_FLAGS_VALID_HEADING" (Some 4) [];
     XE "ADSB_FLAGS_VALID_VELOCITY" (Some 8) [];
     XE "ADSB_FLAGS_VALID_CALLSIGN" (Some 16) [];
     XE "ADSB_FLAGS_VALID_SQUAWK" (Some 32) [];
     XE "ADSB_FLAGS_SIMULATED" (Some 64) []]
].

(** The statements after enums = {}; mavlink_utils/minimal_dialect.py:268-2030. *)
Definition minimal_py_enums : list estmt :=
[
  SEnum "MAV_AUTOPILOT";
  SConst "MAV_AUTOPILOT_GENERIC" 0;
  SEntry "MAV_AUTOPILOT" 0 "MAV_AUTOPILOT_GENERIC";
  SConst "MAV_AUTOPILOT_RESERVED" 1;
  SEntry "MAV_AUTOPILOT" 1 "MAV_AUTOPILOT_RESERVED";
  SConst "MAV_AUTOPILOT_SLUGS" 2;
  SEntry "MAV_AUTOPILOT" 2 "MAV_AUTOPILOT_SLUGS";
  SConst "MAV_AUTOPILOT_ARDUPILOTMEGA" 3;
  SEntry "MAV_AUTOPILOT" 3 "MAV_AUTOPILOT_ARDUPILOTMEGA";
  SConst "MAV_AUTOPILOT_OPENPILOT" 4;
  SEntry "MAV_AUTOPILOT" 4 "MAV_AUTOPILOT_OPENPILOT";
  SConst "MAV_AUTOPILOT_GENERIC_WAYPOINTS_ONLY" 5;
  SEntry "MAV_AUTOPILOT" 5 "MAV_AUTOPILOT_GENERIC_WAYPOINTS_ONLY";
  SConst "MAV_AUTOPILOT_GENERIC_WAYPOINTS_AND_SIMPLE_NAVIGATION_ONLY" 6;
  SEntry "MAV_AUTOPILOT" 6 "MAV_AUTOPILOT_GENERIC_WAYPOINTS_AND_SIMPLE_NAVIGATION_ONLY";
  SConst "MAV_AUTOPILOT_GENERIC_MISSION_FULL" 7;
  SEntry "MAV_AUTOPILOT" 7 "MAV_AUTOPILOT_GENERIC_MISSION_FULL";
  SConst "MAV_AUTOPILOT_INVALID" 8;
  SEntry "MAV_AUTOPILOT" 8 "MAV_AUTOPILOT_INVALID";
  SConst "MAV_AUTOPILOT_PPZ" 9;
  SEntry "MAV_AUTOPILOT" 9 "MAV_AUTOPILOT_PPZ";
  SConst "MAV_AUTOPILOT_UDB" 10;
  SEntry "MAV_AUTOPILOT" 10 "MAV_AUTOPILOT_UDB";
  SConst "MAV_AUTOPILOT_FP" 11;
  SEntry "MAV_AUTOPILOT" 11 "MAV_AUTOPILOT_FP";
  SConst "MAV_AUTOPILOT_PX4" 12;
  SEntry "MAV_AUTOPILOT" 12 "MAV_AUTOPILOT_PX4";
  SConst "MAV_AUTOPILOT_SMACCMPILOT" 13;
  SEntry "MAV_AUTOPILOT" 13 "MAV_AUTOPILOT_SMACCMPILOT";
  SConst "MAV_AUTOPILOT_AUTOQUAD" 14;
  SEntry "MAV_AUTOPILOT" 14 "MAV_AUTOPILOT_AUTOQUAD";
  SConst "MAV_AUTOPILOT_ARMAZILA" 15;
  SEntry "MAV_AUTOPILOT" 15 "MAV_AUTOPILOT_ARMAZILA";
  SConst "MAV_AUTOPILOT_AEROB" 16;
  SEntry "MAV_AUTOPILOT" 16 "MAV_AUTOPILOT_AEROB";
  SConst "MAV_AUTOPILOT_ASLUAV" 17;
  SEntry "MAV_AUTOPILOT" 17 "MAV_AUTOPILOT_ASLUAV";
  SConst "MAV_AUTOPILOT_ENUM_END" 18;
  SEntry "MAV_AUTOPILOT" 18 "MAV_AUTOPILOT_ENUM_END";
  SEnum "MAV_TYPE";
  SConst "MAV_TYPE_GENERIC" 0;
  SEntry "MAV_TYPE" 0 "MAV_TYPE_GENERIC";
  SConst "MAV_TYPE_FIXED_WING" 1;
  SEntry "MAV_TYPE" 1 "MAV_TYPE_FIXED_WING";
  SConst "MAV_TYPE_QUADROTOR" 2;
  SEntry "MAV_TYPE" 2 "MAV_TYPE_QUADROTOR";
  SConst "MAV_TYPE_COAXIAL" 3;
  SEntry "MAV_TYPE" 3 "MAV_TYPE_COAXIAL";
  SConst "MAV_TYPE_HELICOPTER" 4;
  SEntry "MAV_TYPE" 4 "MAV_TYPE_HELICOPTER";
  SConst "MAV_TYPE_ANTENNA_TRACKER" 5;
  SEntry "MAV_TYPE" 5 "MAV_TYPE_ANTENNA_TRACKER";
  SConst "MAV_TYPE_GCS" 6;
  SEntry "MAV_TYPE" 6 "MAV_TYPE_GCS";
  SConst "MAV_TYPE_AIRSHIP" 7;
  SEntry "MAV_TYPE" 7 "MAV_TYPE_AIRSHIP";
  SConst "MAV_TYPE_FREE_BALLOON" 8;
  SEntry "MAV_TYPE" 8 "MAV_TYPE_FREE_BALLOON";
  SConst "MAV_TYPE_ROCKET" 9;
  SEntry "MAV_TYPE" 9 "MAV_TYPE_ROCKET";
  SConst "MAV_TYPE_GROUND_ROVER" 10;
  SEntry "MAV_TYPE" 10 "MAV_TYPE_GROUND_ROVER";
  SConst "MAV_TYPE_SURFACE_BOAT" 11;
  SEntry "MAV_TYPE" 11 "MAV_TYPE_SURFACE_BOAT";
  SConst "MAV_TYPE_SUBMARINE" 12;
  SEntry "MAV_TYPE" 12 "MAV_TYPE_SUBMARINE";
  SConst "MAV_TYPE_HEXAROTOR" 13;
  SEntry "MAV_TYPE" 13 "MAV_TYPE_HEXAROTOR";
  SConst "MAV_TYPE_OCTOROTOR" 14;
  SEntry "MAV_TYPE" 14 "MAV_TYPE_OCTOROTOR";
  SConst "MAV_TYPE_TRICOPTER" 15;
  SEntry "MAV_TYPE" 15 "MAV_TYPE_TRICOPTER";
  SConst "MAV_TYPE_FLAPPING_WING" 16;
  SEntry "MAV_TYPE" 16 "MAV_TYPE_FLAPPING_WING";
  SConst "MAV_TYPE_KITE" 17;
  SEntry "MAV_TYPE" 17 "MAV_TYPE_KITE";
  SConst "MAV_TYPE_ONBOARD_CONTROLLER" 18;
  SEntry "MAV_TYPE" 18 "MAV_TYPE_ONBOARD_CONTROLLER";
  SConst "MAV_TYPE_VTOL_DUOROTOR" 19;
  SEntry "MAV_TYPE" 19 "MAV_TYPE_VTOL_DUOROTOR";
  SConst "MAV_TYPE_VTOL_QUADROTOR" 20;
  SEntry "MAV_TYPE" 20 "MAV_TYPE_VTOL_QUADROTOR";
  SConst "MAV_TYPE_VTOL_TILTROTOR" 21;
  SEntry "MAV_TYPE" 21 "MAV_TYPE_VTOL_TILTROTOR";
  SConst "MAV_TYPE_VTOL_RESERVED2" 22;
  SEntry "MAV_TYPE" 22 "MAV_TYPE_VTOL_RESERVED2";
  SConst "MAV_TYPE_VTOL_RESERVED3" 23;
  SEntry "MAV_TYPE" 23 "MAV_TYPE_VTOL_RESERVED3";
  SConst "MAV_TYPE_VTOL_RESERVED4" 24;
  SEntry "MAV_TYPE" 24 "MAV_TYPE_VTOL_RESERVED4";
  SConst "MAV_TYPE_VTOL_RESERVED5" 25;
  SEntry "MAV_TYPE" 25 "MAV_TYPE_VTOL_RESERVED5";
  SConst "MAV_TYPE_GIMBAL" 26;
  SEntry "MAV_TYPE" 26 "MAV_TYPE_GIMBAL";
  SConst "MAV_TYPE_ADSB" 27;
  SEntry "MAV_TYPE" 27 "MAV_TYPE_ADSB";
  SConst "MAV_TYPE_ENUM_END" 28;
  SEntry "MAV_TYPE" 28 "MAV_TYPE_ENUM_END";
  SEnum "FIRMWARE_VERSION_TYPE";
  SConst "FIRMWARE_VERSION_TYPE_DEV" 0;
  SEntry "FIRMWARE_VERSION_TYPE" 0 "FIRMWARE_VERSION_TYPE_DEV";
  SConst "FIRMWARE_VERSION_TYPE_ALPHA" 64;
  SEntry "FIRMWARE_VERSION_TYPE" 64 "FIRMWARE_VERSION_TYPE_ALPHA";
  SConst "FIRMWARE_VERSION_TYPE_BETA" 128;
  SEntry "FIRMWARE_VERSION_TYPE" 128 "FIRMWARE_VERSION_TYPE_BETA";
  SConst "FIRMWARE_VERSION_TYPE_RC" 192;
  SEntry "FIRMWARE_VERSION_TYPE" 192 "FIRMWARE_VERSION_TYPE_RC";
  SConst "FIRMWARE_VERSION_TYPE_OFFICIAL" 255;
  SEntry "FIRMWARE_VERSION_TYPE" 255 "FIRMWARE_VERSION_TYPE_OFFICIAL";
  SConst "FIRMWARE_VERSION_TYPE_ENUM_END" 256;
  SEntry "FIRMWARE_VERSION_TYPE" 256 "FIRMWARE_VERSION_TYPE_ENUM_END";
  SEnum "MAV_MODE_FLAG";
  SConst "MAV_MODE_FLAG_CUSTOM_MODE_ENABLED" 1;
  SEntry "MAV_MODE_FLAG" 1 "MAV_MODE_FLAG_CUSTOM_MODE_ENABLED";
  SConst "MAV_MODE_FLAG_TEST_ENABLED" 2;
  SEntry "MAV_MODE_FLAG" 2 "MAV_MODE_FLAG_TEST_ENABLED";
  SConst "MAV_MODE_FLAG_AUTO_ENABLED" 4;
  SEntry "MAV_MODE_FLAG" 4 "MAV_MODE_FLAG_AUTO_ENABLED";
  SConst "MAV_MODE_FLAG_GUIDED_ENABLED" 8;
  SEntry "MAV_MODE_FLAG" 8 "MAV_MODE_FLAG_GUIDED_ENABLED";
  SConst "MAV_MODE_FLAG_STABILIZE_ENABLED" 16;
  SEntry "MAV_MODE_FLAG" 16 "MAV_MODE_FLAG_STABILIZE_ENABLED";
  SConst "MAV_MODE_FLAG_HIL_ENABLED" 32;
  SEntry "MAV_MODE_FLAG" 32 "MAV_MODE_FLAG_HIL_ENABLED";
  SConst "MAV_MODE_FLAG_MANUAL_INPUT_ENABLED" 64;
  SEntry "MAV_MODE_FLAG" 64 "MAV_MODE_FLAG_MANUAL_INPUT_ENABLED";
  SConst "MAV_MODE_FLAG_SAFETY_ARMED" 128;
  SEntry "MAV_MODE_FLAG" 128 "MAV_MODE_FLAG_SAFETY_ARMED";
  SConst "MAV_MODE_FLAG_ENUM_END" 129;
  SEntry "MAV_MODE_FLAG" 129 "MAV_MODE_FLAG_ENUM_END";
  SEnum "MAV_MODE_FLAG_DECODE_POSITION";
  SConst "MAV_MODE_FLAG_DECODE_POSITION_CUSTOM_MODE" 1;
  SEntry "MAV_MODE_FLAG_DECODE_POSITION" 1 "MAV_MODE_FLAG_DECODE_POSITION_CUSTOM_MODE";
  SConst "MAV_MODE_FLAG_DECODE_POSITION_TEST" 2;
  SEntry "MAV_MODE_FLAG_DECODE_POSITION" 2 "MAV_MODE_FLAG_DECODE_POSITION_TEST";
  SConst "MAV_MODE_FLAG_DECODE_POSITION_AUTO" 4;
  SEntry "MAV_MODE_FLAG_DECODE_POSITION" 4 "MAV_MODE_FLAG_DECODE_POSITION_AUTO";
  SConst "MAV_MODE_FLAG_DECODE_POSITION_GUIDED" 8;
  SEntry "MAV_MODE_FLAG_DECODE_POSITION" 8 "MAV_MODE_FLAG_DECODE_POSITION_GUIDED";
  SConst "MAV_MODE_FLAG_DECODE_POSITION_STABILIZE" 16;
  SEntry "MAV_MODE_FLAG_DECODE_POSITION" 16 "MAV_MODE_FLAG_DECODE_POSITION_STABILIZE";
  SConst "MAV_MODE_FLAG_DECODE_POSITION_HIL" 32;
  SEntry "MAV_MODE_FLAG_DECODE_POSITION" 32 "MAV_MODE_FLAG_DECODE_POSITION_HIL";
  SConst "MAV_MODE_FLAG_DECODE_POSITION_MANUAL" 64;
  SEntry "MAV_MODE_FLAG_DECODE_POSITION" 64 "MAV_MODE_FLAG_DECODE_POSITION_MANUAL";
  SConst "MAV_MODE_FLAG_DECODE_POSITION_SAFETY" 128;
  SEntry "MAV_MODE_FLAG_DECODE_POSITION" 128 "MAV_MODE_FLAG_DECODE_POSITION_SAFETY";
  SConst "MAV_MODE_FLAG_DECODE_POSITION_ENUM_END" 129;
  SEntry "MAV_MODE_FLAG_DECODE_POSITION" 129 "MAV_MODE_FLAG_DECODE_POSITION_ENUM_END";
  SEnum "MAV_GOTO";
  SConst "MAV_GOTO_DO_HOLD" 0;
  SEntry "MAV_GOTO" 0 "MAV_GOTO_DO_HOLD";
  SConst "MAV_GOTO_DO_CONTINUE" 1;
  SEntry "MAV_GOTO" 1 "MAV_GOTO_DO_CONTINUE";
  SConst "MAV_GOTO_HOLD_AT_CURRENT_POSITION" 2;
  SEntry "MAV_GOTO" 2 "MAV_GOTO_HOLD_AT_CURRENT_POSITION";
  SConst "MAV_GOTO_HOLD_AT_SPECIFIED_POSITION" 3;
  SEntry "MAV_GOTO" 3 "MAV_GOTO_HOLD_AT_SPECIFIED_POSITION";
  SConst "MAV_GOTO_ENUM_END" 4;
  SEntry "MAV_GOTO" 4 "MAV_GOTO_ENUM_END";
  SEnum "MAV_MODE";
  SConst "MAV_MODE_PREFLIGHT" 0;
  SEntry "MAV_MODE" 0 "MAV_MODE_PREFLIGHT";
  SConst "MAV_MODE_STOP" 32;
  SEntry "MAV_MODE" 32 "MAV_MODE_STOP";
  SConst "MAV_MODE_MANUAL_DISARMED" 64;
  SEntry "MAV_MODE" 64 "MAV_MODE_MANUAL_DISARMED";
  SConst "MAV_MODE_TEST_DISARMED" 66;
  SEntry "MAV_MODE" 66 "MAV_MODE_TEST_DISARMED";
  SConst "MAV_MODE_STABILIZE_DISARMED" 80;
  SEntry "MAV_MODE" 80 "MAV_MODE_STABILIZE_DISARMED";
  SConst "MAV_MODE_GUIDED_DISARMED" 88;
  SEntry "MAV_MODE" 88 "MAV_MODE_GUIDED_DISARMED";
  SConst "MAV_MODE_AUTO_DISARMED" 92;
  SEntry "MAV_MODE" 92 "MAV_MODE_AUTO_DISARMED";
  SConst "MAV_MODE_MANUAL_ARMED" 192;
  SEntry "MAV_MODE" 192 "MAV_MODE_MANUAL_ARMED";
  SConst "MAV_MODE_TEST_ARMED" 194;
  SEntry "MAV_MODE" 194 "MAV_MODE_TEST_ARMED";
  SConst "MAV_MODE_STABILIZE_ARMED" 208;
  SEntry "MAV_MODE" 208 "MAV_MODE_STABILIZE_ARMED";
  SConst "MAV_MODE_GUIDED_ARMED" 216;
  SEntry "MAV_MODE" 216 "MAV_MODE_GUIDED_ARMED";
  SConst "MAV_MODE_AUTO_ARMED" 220;
  SEntry "MAV_MODE" 220 "MAV_MODE_AUTO_ARMED";
  SConst "MAV_MODE_ENUM_END" 221;
  SEntry "MAV_MODE" 221 "MAV_MODE_ENUM_END";
  SEnum "MAV_STATE";
  SConst "MAV_STATE_UNINIT" 0;
  SEntry "MAV_STATE" 0 "MAV_STATE_UNINIT";
  SConst "MAV_STATE_BOOT" 1;
  SEntry "MAV_STATE" 1 "MAV_STATE_BOOT";
  SConst "MAV_STATE_CALIBRATING" 2;
  SEntry "MAV_STATE" 2 "MAV_STATE_CALIBRATING";
  SConst "MAV_STATE_STANDBY" 3;
  SEntry "MAV_STATE" 3 "MAV_STATE_STANDBY";
  SConst "MAV_STATE_ACTIVE" 4;
  SEntry "MAV_STATE" 4 "MAV_STATE_ACTIVE";
  SConst "MAV_STATE_CRITICAL" 5;
  SEntry "MAV_STATE" 5 "MAV_STATE_CRITICAL";
  SConst "MAV_STATE_EMERGENCY" 6;
  SEntry "MAV_STATE" 6 "MAV_STATE_EMERGENCY";
  SConst "MAV_STATE_POWEROFF" 7;
  SEntry "MAV_STATE" 7 "MAV_STATE_POWEROFF";
  SConst "MAV_STATE_ENUM_END" 8;
  SEntry "MAV_STATE" 8 "MAV_STATE_ENUM_END";
  SEnum "MAV_COMPONENT";
  SConst "MAV_COMP_ID_ALL" 0;
  SEntry "MAV_COMPONENT" 0 "MAV_COMP_ID_ALL";
  SConst "MAV_COMP_ID_CAMERA" 100;
  SEntry "MAV_COMPONENT" 100 "MAV_COMP_ID_CAMERA";
  SConst "MAV_COMP_ID_SERVO1" 140;
  SEntry "MAV_COMPONENT" 140 "MAV_COMP_ID_SERVO1";
  SConst "MAV_COMP_ID_SERVO2" 141;
  SEntry "MAV_COMPONENT" 141 "MAV_COMP_ID_SERVO2";
  SConst "MAV_COMP_ID_SERVO3" 142;
  SEntry "MAV_COMPONENT" 142 "MAV_COMP_ID_SERVO3";
  SConst "MAV_COMP_ID_SERVO4" 143;
  SEntry "MAV_COMPONENT" 143 "MAV_COMP_ID_SERVO4";
  SConst "MAV_COMP_ID_SERVO5" 144;
  SEntry "MAV_COMPONENT" 144 "MAV_COMP_ID_SERVO5";
  SConst "MAV_COMP_ID_SERVO6" 145;
  SEntry "MAV_COMPONENT" 145 "MAV_COMP_ID_SERVO6";
  SConst "MAV_COMP_ID_SERVO7" 146;
  SEntry "MAV_COMPONENT" 146 "MAV_COMP_ID_SERVO7";
  SConst "MAV_COMP_ID_SERVO8" 147;
  SEntry "MAV_COMPONENT" 147 "MAV_COMP_ID_SERVO8";
  SConst "MAV_COMP_ID_SERVO9" 148;
  SEntry "MAV_COMPONENT" 148 "MAV_COMP_ID_SERVO9";
  SConst "MAV_COMP_ID_SERVO10" 149;
  SEntry "MAV_COMPONENT" 149 "MAV_COMP_ID_SERVO10";
  SConst "MAV_COMP_ID_SERVO11" 150;
  SEntry "MAV_COMPONENT" 150 "MAV_COMP_ID_SERVO11";
  SConst "MAV_COMP_ID_SERVO12" 151;
  SEntry "MAV_COMPONENT" 151 "MAV_COMP_ID_SERVO12";
  SConst "MAV_COMP_ID_SERVO13" 152;
  SEntry "MAV_COMPONENT" 152 "MAV_COMP_ID_SERVO13";
  SConst "MAV_COMP_ID_SERVO14" 153;
  SEntry "MAV_COMPONENT" 153 "MAV_COMP_ID_SERVO14";
  SConst "MAV_COMP_ID_GIMBAL" 154;
  SEntry "MAV_COMPONENT" 154 "MAV_COMP_ID_GIMBAL";
  SConst "MAV_COMP_ID_LOG" 155;
  SEntry "MAV_COMPONENT" 155 "MAV_COMP_ID_LOG";
  SConst "MAV_COMP_ID_ADSB" 156;
  SEntry "MAV_COMPONENT" 156 "MAV_COMP_ID_ADSB";
  SConst "MAV_COMP_ID_MAPPER" 180;
  SEntry "MAV_COMPONENT" 180 "MAV_COMP_ID_MAPPER";
  SConst "MAV_COMP_ID_MISSIONPLANNER" 190;
  SEntry "MAV_COMPONENT" 190 "MAV_COMP_ID_MISSIONPLANNER";
  SConst "MAV_COMP_ID_PATHPLANNER" 195;
  SEntry "MAV_COMPONENT" 195 "MAV_COMP_ID_PATHPLANNER";
  SConst "MAV_COMP_ID_IMU" 200;
  SEntry "MAV_COMPONENT" 200 "MAV_COMP_ID_IMU";
  SConst "MAV_COMP_ID_IMU_2" 201;
  SEntry "MAV_COMPONENT" 201 "MAV_COMP_ID_IMU_2";
  SConst "MAV_COMP_ID_IMU_3" 202;
  SEntry "MAV_COMPONENT" 202 "MAV_COMP_ID_IMU_3";
  SConst "MAV_COMP_ID_GPS" 220;
  SEntry "MAV_COMPONENT" 220 "MAV_COMP_ID_GPS";
  SConst "MAV_COMP_ID_UDP_BRIDGE" 240;
  SEntry "MAV_COMPONENT" 240 "MAV_COMP_ID_UDP_BRIDGE";
  SConst "MAV_COMP_ID_UART_BRIDGE" 241;
  SEntry "MAV_COMPONENT" 241 "MAV_COMP_ID_UART_BRIDGE";
  SConst "MAV_COMP_ID_SYSTEM_CONTROL" 250;
  SEntry "MAV_COMPONENT" 250 "MAV_COMP_ID_SYSTEM_CONTROL";
  SConst "MAV_COMPONENT_ENUM_END" 251;
  SEntry "MAV_COMPONENT" 251 "MAV_COMPONENT_ENUM_END";
  SEnum "MAV_SYS_STATUS_SENSOR";
  SConst "MAV_SYS_STATUS_SENSOR_3D_GYRO" 1;
  SEntry "MAV_SYS_STATUS_SENSOR" 1 "MAV_SYS_STATUS_SENSOR_3D_GYRO";
  SConst "MAV_SYS_STATUS_SENSOR_3D_ACCEL" 2;
  SEntry "MAV_SYS_STATUS_SENSOR" 2 "MAV_SYS_STATUS_SENSOR_3D_ACCEL";
  SConst "MAV_SYS_STATUS_SENSOR_3D_MAG" 4;
  SEntry "MAV_SYS_STATUS_SENSOR" 4 "MAV_SYS_STATUS_SENSOR_3D_MAG";
  SConst "MAV_SYS_STATUS_SENSOR_ABSOLUTE_PRESSURE" 8;
  SEntry "MAV_SYS_STATUS_SENSOR" 8 "MAV_SYS_STATUS_SENSOR_ABSOLUTE_PRESSURE";
  SConst "MAV_SYS_STATUS_SENSOR_DIFFERENTIAL_PRESSURE" 16;
  SEntry "MAV_SYS_STATUS_SENSOR" 16 "MAV_SYS_STATUS_SENSOR_DIFFERENTIAL_PRESSURE";
  SConst "MAV_SYS_STATUS_SENSOR_GPS" 32;
  SEntry "MAV_SYS_STATUS_SENSOR" 32 "MAV_SYS_STATUS_SENSOR_GPS";
  SConst "MAV_SYS_STATUS_SENSOR_OPTICAL_FLOW" 64;
  SEntry "MAV_SYS_STATUS_SENSOR" 64 "MAV_SYS_STATUS_SENSOR_OPTICAL_FLOW";
  SConst "MAV_SYS_STATUS_SENSOR_VISION_POSITION" 128;
  SEntry "MAV_SYS_STATUS_SENSOR" 128 "MAV_SYS_STATUS_SENSOR_VISION_POSITION";
  SConst "MAV_SYS_STATUS_SENSOR_LASER_POSITION" 256;
  SEntry "MAV_SYS_STATUS_SENSOR" 256 "MAV_SYS_STATUS_SENSOR_LASER_POSITION";
  SConst "MAV_SYS_STATUS_SENSOR_EXTERNAL_GROUND_TRUTH" 512;
  SEntry "MAV_SYS_STATUS_SENSOR" 512 "MAV_SYS_STATUS_SENSOR_EXTERNAL_GROUND_TRUTH";
  SConst "MAV_SYS_STATUS_SENSOR_ANGULAR_RATE_CONTROL" 1024;
  SEntry "MAV_SYS_STATUS_SENSOR" 1024 "MAV_SYS_STATUS_SENSOR_ANGULAR_RATE_CONTROL";
  SConst "MAV_SYS_STATUS_SENSOR_ATTITUDE_STABILIZATION" 2048;
  SEntry "MAV_SYS_STATUS_SENSOR" 2048 "MAV_SYS_STATUS_SENSOR_ATTITUDE_STABILIZATION";
  SConst "MAV_SYS_STATUS_SENSOR_YAW_POSITION" 4096;
  SEntry "MAV_SYS_STATUS_SENSOR" 4096 "MAV_SYS_STATUS_SENSOR_YAW_POSITION";
  SConst "MAV_SYS_STATUS_SENSOR_Z_ALTITUDE_CONTROL" 8192;
  SEntry "MAV_SYS_STATUS_SENSOR" 8192 "MAV_SYS_STATUS_SENSOR_Z_ALTITUDE_CONTROL";
  SConst "MAV_SYS_STATUS_SENSOR_XY_POSITION_CONTROL" 16384;
  SEntry "MAV_SYS_STATUS_SENSOR" 16384 "MAV_SYS_STATUS_SENSOR_XY_POSITION_CONTROL";
  SConst "MAV_SYS_STATUS_SENSOR_MOTOR_OUTPUTS" 32768;
  SEntry "MAV_SYS_STATUS_SENSOR" 32768 "MAV_SYS_STATUS_SENSOR_MOTOR_OUTPUTS";
  SConst "MAV_SYS_STATUS_SENSOR_RC_RECEIVER" 65536;
  SEntry "MAV_SYS_STATUS_SENSOR" 65536 "MAV_SYS_STATUS_SENSOR_RC_RECEIVER";
  SConst "MAV_SYS_STATUS_SENSOR_3D_GYRO2" 131072;
  SEntry "MAV_SYS_STATUS_SENSOR" 131072 "MAV_SYS_STATUS_SENSOR_3D_GYRO2";
  SConst "MAV_SYS_STATUS_SENSOR_3D_ACCEL2" 262144;
  SEntry "MAV_SYS_STATUS_SENSOR" 262144 "MAV_SYS_STATUS_SENSOR_3D_ACCEL2";
  SConst "MAV_SYS_STATUS_SENSOR_3D_MAG2" 524288;
  SEntry "MAV_SYS_STATUS_SENSOR" 524288 "MAV_SYS_STATUS_SENSOR_3D_MAG2";
  SConst "MAV_SYS_STATUS_GEOFENCE" 1048576;
  SEntry "MAV_SYS_STATUS_SENSOR" 1048576 "MAV_SYS_STATUS_GEOFENCE";
  SConst "MAV_SYS_STATUS_AHRS" 2097152;
  SEntry "MAV_SYS_STATUS_SENSOR" 2097152 "MAV_SYS_STATUS_AHRS";
  SConst "MAV_SYS_STATUS_TERRAIN" 4194304;
  SEntry "MAV_SYS_STATUS_SENSOR" 4194304 "MAV_SYS_STATUS_TERRAIN";
  SConst "MAV_SYS_STATUS_SENSOR_ENUM_END" 4194305;
  SEntry "MAV_SYS_STATUS_SENSOR" 4194305 "MAV_SYS_STATUS_SENSOR_ENUM_END";
  SEnum "MAV_FRAME";
  SConst "MAV_FRAME_GLOBAL" 0;
  SEntry "MAV_FRAME" 0 "MAV_FRAME_GLOBAL";
  SConst "MAV_FRAME_LOCAL_NED" 1;
  SEntry "MAV_FRAME" 1 "MAV_FRAME_LOCAL_NED";
  SConst "MAV_FRAME_MISSION" 2;
  SEntry "MAV_FRAME" 2 "MAV_FRAME_MISSION";
  SConst "MAV_FRAME_GLOBAL_RELATIVE_ALT" 3;
  SEntry "MAV_FRAME" 3 "MAV_FRAME_GLOBAL_RELATIVE_ALT";
  SConst "MAV_FRAME_LOCAL_ENU" 4;
  SEntry "MAV_FRAME" 4 "MAV_FRAME_LOCAL_ENU";
  SConst "MAV_FRAME_GLOBAL_INT" 5;
  SEntry "MAV_FRAME" 5 "MAV_FRAME_GLOBAL_INT";
  SConst "MAV_FRAME_GLOBAL_RELATIVE_ALT_INT" 6;
  SEntry "MAV_FRAME" 6 "MAV_FRAME_GLOBAL_RELATIVE_ALT_INT";
  SConst "MAV_FRAME_LOCAL_OFFSET_NED" 7;
  SEntry "MAV_FRAME" 7 "MAV_FRAME_LOCAL_OFFSET_NED";
  SConst "MAV_FRAME_BODY_NED" 8;
  SEntry "MAV_FRAME" 8 "MAV_FRAME_BODY_NED";
  SConst "MAV_FRAME_BODY_OFFSET_NED" 9;
  SEntry "MAV_FRAME" 9 "MAV_FRAME_BODY_OFFSET_NED";
  SConst "MAV_FRAME_GLOBAL_TERRAIN_ALT" 10;
  SEntry "MAV_FRAME" 10 "MAV_FRAME_GLOBAL_TERRAIN_ALT";
  SConst "MAV_FRAME_GLOBAL_TERRAIN_ALT_INT" 11;
  SEntry "MAV_FRAME" 11 "MAV_FRAME_GLOBAL_TERRAIN_ALT_INT";
  SConst "MAV_FRAME_HCMISSION" 12;
  SEntry "MAV_FRAME" 12 "MAV_FRAME_HCMISSION";
  SConst "MAV_FRAME_ENUM_END" 13;
  SEntry "MAV_FRAME" 13 "MAV_FRAME_ENUM_END";
  SEnum "MAVLINK_DATA_STREAM_TYPE";
  SConst "MAVLINK_DATA_STREAM_IMG_JPEG" 1;
  SEntry "MAVLINK_DATA_STREAM_TYPE" 1 "MAVLINK_DATA_STREAM_IMG_JPEG";
  SConst "MAVLINK_DATA_STREAM_IMG_BMP" 2;
  SEntry "MAVLINK_DATA_STREAM_TYPE" 2 "MAVLINK_DATA_STREAM_IMG_BMP";
  SConst "MAVLINK_DATA_STREAM_IMG_RAW8U" 3;
  SEntry "MAVLINK_DATA_STREAM_TYPE" 3 "MAVLINK_DATA_STREAM_IMG_RAW8U";
  SConst "MAVLINK_DATA_STREAM_IMG_RAW32U" 4;
  SEntry "MAVLINK_DATA_STREAM_TYPE" 4 "MAVLINK_DATA_STREAM_IMG_RAW32U";
  SConst "MAVLINK_DATA_STREAM_IMG_PGM" 5;
  SEntry "MAVLINK_DATA_STREAM_TYPE" 5 "MAVLINK_DATA_STREAM_IMG_PGM";
  SConst "MAVLINK_DATA_STREAM_IMG_PNG" 6;
  SEntry "MAVLINK_DATA_STREAM_TYPE" 6 "MAVLINK_DATA_STREAM_IMG_PNG";
  SConst "MAVLINK_DATA_STREAM_TYPE_ENUM_END" 7;
  SEntry "MAVLINK_DATA_STREAM_TYPE" 7 "MAVLINK_DATA_STREAM_TYPE_ENUM_END";
  SEnum "FENCE_ACTION";
  SConst "FENCE_ACTION_NONE" 0;
  SEntry "FENCE_ACTION" 0 "FENCE_ACTION_NONE";
  SConst "FENCE_ACTION_GUIDED" 1;
  SEntry "FENCE_ACTION" 1 "FENCE_ACTION_GUIDED";
  SConst "FENCE_ACTION_REPORT" 2;
  SEntry "FENCE_ACTION" 2 "FENCE_ACTION_REPORT";
  SConst "FENCE_ACTION_GUIDED_THR_PASS" 3;
  SEntry "FENCE_ACTION" 3 "FENCE_ACTION_GUIDED_THR_PASS";
  SConst "FENCE_ACTION_ENUM_END" 4;
  SEntry "FENCE_ACTION" 4 "FENCE_ACTION_ENUM_END";
  SEnum "FENCE_BREACH";
  SConst "FENCE_BREACH_NONE" 0;
  SEntry "FENCE_BREACH" 0 "FENCE_BREACH_NONE";
  SConst "FENCE_BREACH_MINALT" 1;
  SEntry "FENCE_BREACH" 1 "FENCE_BREACH_MINALT";
  SConst "FENCE_BREACH_MAXALT" 2;
  SEntry "FENCE_BREACH" 2 "FENCE_BREACH_MAXALT";
  SConst "FENCE_BREACH_BOUNDARY" 3;
  SEntry "FENCE_BREACH" 3 "FENCE_BREACH_BOUNDARY";
  SConst "FENCE_BREACH_ENUM_END" 4;
  SEntry "FENCE_BREACH" 4 "FENCE_BREACH_ENUM_END";
  SEnum "MAV_MOUNT_MODE";
  SConst "MAV_MOUNT_MODE_RETRACT" 0;
  SEntry "MAV_MOUNT_MODE" 0 "MAV_MOUNT_MODE_RETRACT";
  SConst "MAV_MOUNT_MODE_NEUTRAL" 1;
  SEntry "MAV_MOUNT_MODE" 1 "MAV_MOUNT_MODE_NEUTRAL";
  SConst "MAV_MOUNT_MODE_MAVLINK_TARGETING" 2;
  SEntry "MAV_MOUNT_MODE" 2 "MAV_MOUNT_MODE_MAVLINK_TARGETING";
  SConst "MAV_MOUNT_MODE_RC_TARGETING" 3;
  SEntry "MAV_MOUNT_MODE" 3 "MAV_MOUNT_MODE_RC_TARGETING";
  SConst "MAV_MOUNT_MODE_GPS_POINT" 4;
  SEntry "MAV_MOUNT_MODE" 4 "MAV_MOUNT_MODE_GPS_POINT";
  SConst "MAV_MOUNT_MODE_ENUM_END" 5;
  SEntry "MAV_MOUNT_MODE" 5 "MAV_MOUNT_MODE_ENUM_END";
  SEnum "MAV_CMD";
  SConst "MAV_CMD_NAV_WAYPOINT" 16;
  SEntry "MAV_CMD" 16 "MAV_CMD_NAV_WAYPOINT";
  SParam "MAV_CMD" 16 1;
  SParam "MAV_CMD" 16 2;
  SParam "MAV_CMD" 16 3;
  SParam "MAV_CMD" 16 4;
  SParam "MAV_CMD" 16 5;
  SParam "MAV_CMD" 16 6;
  SParam "MAV_CMD" 16 7;
  SConst "MAV_CMD_NAV_LOITER_UNLIM" 17;
  SEntry "MAV_CMD" 17 "MAV_CMD_NAV_LOITER_UNLIM";
  SParam "MAV_CMD" 17 1;
  SParam "MAV_CMD" 17 2;
  SParam "MAV_CMD" 17 3;
  SParam "MAV_CMD" 17 4;
  SParam "MAV_CMD" 17 5;
  SParam "MAV_CMD" 17 6;
  SParam "MAV_CMD" 17 7;
  SConst "MAV_CMD_NAV_LOITER_TURNS" 18;
  SEntry "MAV_CMD" 18 "MAV_CMD_NAV_LOITER_TURNS";
  SParam "MAV_CMD" 18 1;
  SParam "MAV_CMD" 18 2;
  SParam "MAV_CMD" 18 3;
  SParam "MAV_CMD" 18 4;
  SParam "MAV_CMD" 18 5;
  SParam "MAV_CMD" 18 6;
  SParam "MAV_CMD" 18 7;
  SConst "MAV_CMD_NAV_LOITER_TIME" 19;
  SEntry "MAV_CMD" 19 "MAV_CMD_NAV_LOITER_TIME";
  SParam "MAV_CMD" 19 1;
  SParam "MAV_CMD" 19 2;
  SParam "MAV_CMD" 19 3;
  SParam "MAV_CMD" 19 4;
  SParam "MAV_CMD" 19 5;
  SParam "MAV_CMD" 19 6;
  SParam "MAV_CMD" 19 7;
  SConst "MAV_CMD_NAV_RETURN_TO_LAUNCH" 20;
  SEntry "MAV_CMD" 20 "MAV_CMD_NAV_RETURN_TO_LAUNCH";
  SParam "MAV_CMD" 20 1;
  SParam "MAV_CMD" 20 2;
  SParam "MAV_CMD" 20 3;
  SParam "MAV_CMD" 20 4;
  SParam "MAV_CMD" 20 5;
  SParam "MAV_CMD" 20 6;
  SParam "MAV_CMD" 20 7;
  SConst "MAV_CMD_NAV_LAND" 21;
  SEntry "MAV_CMD" 21 "MAV_CMD_NAV_LAND";
  SParam "MAV_CMD" 21 1;
  SParam "MAV_CMD" 21 2;
  SParam "MAV_CMD" 21 3;
  SParam "MAV_CMD" 21 4;
  SParam "MAV_CMD" 21 5;
  SParam "MAV_CMD" 21 6;
  SParam "MAV_CMD" 21 7;
  SConst "MAV_CMD_NAV_SAFETY_REGION" 22;
  SEntry "MAV_CMD" 22 "MAV_CMD_NAV_SAFETY_REGION";
  SParam "MAV_CMD" 22 1;
  SParam "MAV_CMD" 22 2;
  SParam "MAV_CMD" 22 3;
  SParam "MAV_CMD" 22 4;
  SParam "MAV_CMD" 22 5;
  SParam "MAV_CMD" 22 6;
  SParam "MAV_CMD" 22 7;
  SConst "MAV_CMD_NAV_LAND_LOCAL" 23;
  SEntry "MAV_CMD" 23 "MAV_CMD_NAV_LAND_LOCAL";
  SParam "MAV_CMD" 23 1;
  SParam "MAV_CMD" 23 2;
  SParam "MAV_CMD" 23 3;
  SParam "MAV_CMD" 23 4;
  SParam "MAV_CMD" 23 5;
  SParam "MAV_CMD" 23 6;
  SParam "MAV_CMD" 23 7;
  SConst "MAV_CMD_NAV_TAKEOFF_LOCAL" 24;
  SEntry "MAV_CMD" 24 "MAV_CMD_NAV_TAKEOFF_LOCAL";
  SParam "MAV_CMD" 24 1;
  SParam "MAV_CMD" 24 2;
  SParam "MAV_CMD" 24 3;
  SParam "MAV_CMD" 24 4;
  SParam "MAV_CMD" 24 5;
  SParam "MAV_CMD" 24 6;
  SParam "MAV_CMD" 24 7;
  SConst "MAV_CMD_NAV_FOLLOW" 25;
  SEntry "MAV_CMD" 25 "MAV_CMD_NAV_FOLLOW";
  SParam "MAV_CMD" 25 1;
  SParam "MAV_CMD" 25 2;
  SParam "MAV_CMD" 25 3;
  SParam "MAV_CMD" 25 4;
  SParam "MAV_CMD" 25 5;
  SParam "MAV_CMD" 25 6;
  SParam "MAV_CMD" 25 7;
  SConst "MAV_CMD_NAV_CONTINUE_AND_CHANGE_ALT" 30;
  SEntry "MAV_CMD" 30 "MAV_CMD_NAV_CONTINUE_AND_CHANGE_ALT";
  SParam "MAV_CMD" 30 1;
  SParam "MAV_CMD" 30 2;
  SParam "MAV_CMD" 30 3;
  SParam "MAV_CMD" 30 4;
  SParam "MAV_CMD" 30 5;
  SParam "MAV_CMD" 30 6;
  SParam "MAV_CMD" 30 7;
  SConst "MAV_CMD_NAV_LOITER_TO_ALT" 31;
  SEntry "MAV_CMD" 31 "MAV_CMD_NAV_LOITER_TO_ALT";
  SParam "MAV_CMD" 31 1;
  SParam "MAV_CMD" 31 2;
  SParam "MAV_CMD" 31 3;
  SParam "MAV_CMD" 31 4;
  SParam "MAV_CMD" 31 5;
  SParam "MAV_CMD" 31 6;
  SParam "MAV_CMD" 31 7;
  SConst "MAV_CMD_NAV_ROI" 80;
  SEntry "MAV_CMD" 80 "MAV_CMD_NAV_ROI";
  SParam "MAV_CMD" 80 1;
  SParam "MAV_CMD" 80 2;
  SParam "MAV_CMD" 80 3;
  SParam "MAV_CMD" 80 4;
  SParam "MAV_CMD" 80 5;
  SParam "MAV_CMD" 80 6;
  SParam "MAV_CMD" 80 7;
  SConst "MAV_CMD_NAV_PATHPLANNING" 81;
  SEntry "MAV_CMD" 81 "MAV_CMD_NAV_PATHPLANNING";
  SParam "MAV_CMD" 81 1;
  SParam "MAV_CMD" 81 2;
  SParam "MAV_CMD" 81 3;
  SParam "MAV_CMD" 81 4;
  SParam "MAV_CMD" 81 5;
  SParam "MAV_CMD" 81 6;
  SParam "MAV_CMD" 81 7;
  SConst "MAV_CMD_NAV_SPLINE_WAYPOINT" 82;
  SEntry "MAV_CMD" 82 "MAV_CMD_NAV_SPLINE_WAYPOINT";
  SParam "MAV_CMD" 82 1;
  SParam "MAV_CMD" 82 2;
  SParam "MAV_CMD" 82 3;
  SParam "MAV_CMD" 82 4;
  SParam "MAV_CMD" 82 5;
  SParam "MAV_CMD" 82 6;
  SParam "MAV_CMD" 82 7;
  SConst "MAV_CMD_NAV_VTOL_TAKEOFF" 84;
  SEntry "MAV_CMD" 84 "MAV_CMD_NAV_VTOL_TAKEOFF";
  SParam "MAV_CMD" 84 1;
  SParam "MAV_CMD" 84 2;
  SParam "MAV_CMD" 84 3;
  SParam "MAV_CMD" 84 4;
  SParam "MAV_CMD" 84 5;
  SParam "MAV_CMD" 84 6;
  SParam "MAV_CMD" 84 7;
  SConst "MAV_CMD_NAV_VTOL_LAND" 85;
  SEntry "MAV_CMD" 85 "MAV_CMD_NAV_VTOL_LAND";
  SParam "MAV_CMD" 85 1;
  SParam "MAV_CMD" 85 2;
  SParam "MAV_CMD" 85 3;
  SParam "MAV_CMD" 85 4;
  SParam "MAV_CMD" 85 5;
  SParam "MAV_CMD" 85 6;
  SParam "MAV_CMD" 85 7;
  SConst "MAV_CMD_NAV_GUIDED_ENABLE" 92;
  SEntry "MAV_CMD" 92 "MAV_CMD_NAV_GUIDED_ENABLE";
  SParam "MAV_CMD" 92 1;
  SParam "MAV_CMD" 92 2;
  SParam "MAV_CMD" 92 3;
  SParam "MAV_CMD" 92 4;
  SParam "MAV_CMD" 92 5;
  SParam "MAV_CMD" 92 6;
  SParam "MAV_CMD" 92 7;
  SConst "MAV_CMD_NAV_LAST" 95;
  SEntry "MAV_CMD" 95 "MAV_CMD_NAV_LAST";
  SParam "MAV_CMD" 95 1;
  SParam "MAV_CMD" 95 2;
  SParam "MAV_CMD" 95 3;
  SParam "MAV_CMD" 95 4;
  SParam "MAV_CMD" 95 5;
  SParam "MAV_CMD" 95 6;
  SParam "MAV_CMD" 95 7;
  SConst "MAV_CMD_CONDITION_DELAY" 112;
  SEntry "MAV_CMD" 112 "MAV_CMD_CONDITION_DELAY";
  SParam "MAV_CMD" 112 1;
  SParam "MAV_CMD" 112 2;
  SParam "MAV_CMD" 112 3;
  SParam "MAV_CMD" 112 4;
  SParam "MAV_CMD" 112 5;
  SParam "MAV_CMD" 112 6;
  SParam "MAV_CMD" 112 7;
  SConst "MAV_CMD_CONDITION_CHANGE_ALT" 113;
  SEntry "MAV_CMD" 113 "MAV_CMD_CONDITION_CHANGE_ALT";
  SParam "MAV_CMD" 113 1;
  SParam "MAV_CMD" 113 2;
  SParam "MAV_CMD" 113 3;
  SParam "MAV_CMD" 113 4;
  SParam "MAV_CMD" 113 5;
  SParam "MAV_CMD" 113 6;
  SParam "MAV_CMD" 113 7;
  SConst "MAV_CMD_CONDITION_DISTANCE" 114;
  SEntry "MAV_CMD" 114 "MAV_CMD_CONDITION_DISTANCE";
  SParam "MAV_CMD" 114 1;
  SParam "MAV_CMD" 114 2;
  SParam "MAV_CMD" 114 3;
  SParam "MAV_CMD" 114 4;
  SParam "MAV_CMD" 114 5;
  SParam "MAV_CMD" 114 6;
  SParam "MAV_CMD" 114 7;
  SConst "MAV_CMD_CONDITION_YAW" 115;
  SEntry "MAV_CMD" 115 "MAV_CMD_CONDITION_YAW";
  SParam "MAV_CMD" 115 1;
  SParam "MAV_CMD" 115 2;
  SParam "MAV_CMD" 115 3;
  SParam "MAV_CMD" 115 4;
  SParam "MAV_CMD" 115 5;
  SParam "MAV_CMD" 115 6;
  SParam "MAV_CMD" 115 7;
  SConst "MAV_CMD_CONDITION_LAST" 159;
  SEntry "MAV_CMD" 159 "MAV_CMD_CONDITION_LAST";
  SParam "MAV_CMD" 159 1;
  SParam "MAV_CMD" 159 2;
  SParam "MAV_CMD" 159 3;
  SParam "MAV_CMD" 159 4;
  SParam "MAV_CMD" 159 5;
  SParam "MAV_CMD" 159 6;
  SParam "MAV_CMD" 159 7;
  SConst "MAV_CMD_DO_SET_MODE" 176;
  SEntry "MAV_CMD" 176 "MAV_CMD_DO_SET_MODE";
  SParam "MAV_CMD" 176 1;
  SParam "MAV_CMD" 176 2;
  SParam "MAV_CMD" 176 3;
  SParam "MAV_CMD" 176 4;
  SParam "MAV_CMD" 176 5;
  SParam "MAV_CMD" 176 6;
  SParam "MAV_CMD" 176 7;
  SConst "MAV_CMD_DO_JUMP" 177;
  SEntry "MAV_CMD" 177 "MAV_CMD_DO_JUMP";
  SParam "MAV_CMD" 177 1;
  SParam "MAV_CMD" 177 2;
  SParam "MAV_CMD" 177 3;
  SParam "MAV_CMD" 177 4;
  SParam "MAV_CMD" 177 5;
  SParam "MAV_CMD" 177 6;
  SParam "MAV_CMD" 177 7;
  SConst "MAV_CMD_DO_CHANGE_SPEED" 178;
  SEntry "MAV_CMD" 178 "MAV_CMD_DO_CHANGE_SPEED";
  SParam "MAV_CMD" 178 1;
  SParam "MAV_CMD" 178 2;
  SParam "MAV_CMD" 178 3;
  SParam "MAV_CMD" 178 4;
  SParam "MAV_CMD" 178 5;
  SParam "MAV_CMD" 178 6;
  SParam "MAV_CMD" 178 7;
  SConst "MAV_CMD_DO_SET_HOME" 179;
  SEntry "MAV_CMD" 179 "MAV_CMD_DO_SET_HOME";
  SParam "MAV_CMD" 179 1;
  SParam "MAV_CMD" 179 2;
  SParam "MAV_CMD" 179 3;
  SParam "MAV_CMD" 179 4;
  SParam "MAV_CMD" 179 5;
  SParam "MAV_CMD" 179 6;
  SParam "MAV_CMD" 179 7;
  SConst "MAV_CMD_DO_SET_PARAMETER" 180;
  SEntry "MAV_CMD" 180 "MAV_CMD_DO_SET_PARAMETER";
  SParam "MAV_CMD" 180 1;
  SParam "MAV_CMD" 180 2;
  SParam "MAV_CMD" 180 3;
  SParam "MAV_CMD" 180 4;
  SParam "MAV_CMD" 180 5;
  SParam "MAV_CMD" 180 6;
  SParam "MAV_CMD" 180 7;
  SConst "MAV_CMD_DO_SET_RELAY" 181;
  SEntry "MAV_CMD" 181 "MAV_CMD_DO_SET_RELAY";
  SParam "MAV_CMD" 181 1;
  SParam "MAV_CMD" 181 2;
  SParam "MAV_CMD" 181 3;
  SParam "MAV_CMD" 181 4;
  SParam "MAV_CMD" 181 5;
  SParam "MAV_CMD" 181 6;
  SParam "MAV_CMD" 181 7;
  SConst "MAV_CMD_DO_REPEAT_RELAY" 182;
  SEntry "MAV_CMD" 182 "MAV_CMD_DO_REPEAT_RELAY";
  SParam "MAV_CMD" 182 1;
  SParam "MAV_CMD" 182 2;
  SParam "MAV_CMD" 182 3;
  SParam "MAV_CMD" 182 4;
  SParam "MAV_CMD" 182 5;
  SParam "MAV_CMD" 182 6;
  SParam "MAV_CMD" 182 7;
  SConst "MAV_CMD_DO_SET_SERVO" 183;
  SEntry "MAV_CMD" 183 "MAV_CMD_DO_SET_SERVO";
  SParam "MAV_CMD" 183 1;
  SParam "MAV_CMD" 183 2;
  SParam "MAV_CMD" 183 3;
  SParam "MAV_CMD" 183 4;
  SParam "MAV_CMD" 183 5;
  SParam "MAV_CMD" 183 6;
  SParam "MAV_CMD" 183 7;
  SConst "MAV_CMD_DO_REPEAT_SERVO" 184;
  SEntry "MAV_CMD" 184 "MAV_CMD_DO_REPEAT_SERVO";
  SParam "MAV_CMD" 184 1;
  SParam "MAV_CMD" 184 2;
  SParam "MAV_CMD" 184 3;
  SParam "MAV_CMD" 184 4;
  SParam "MAV_CMD" 184 5;
  SParam "MAV_CMD" 184 6;
  SParam "MAV_CMD" 184 7;
  SConst "MAV_CMD_DO_FLIGHTTERMINATION" 185;
  SEntry "MAV_CMD" 185 "MAV_CMD_DO_FLIGHTTERMINATION";
  SParam "MAV_CMD" 185 1;
  SParam "MAV_CMD" 185 2;
  SParam "MAV_CMD" 185 3;
  SParam "MAV_CMD" 185 4;
  SParam "MAV_CMD" 185 5;
  SParam "MAV_CMD" 185 6;
  SParam "MAV_CMD" 185 7;
  SConst "MAV_CMD_DO_LAND_START" 189;
  SEntry "MAV_CMD" 189 "MAV_CMD_DO_LAND_START";
  SParam "MAV_CMD" 189 1;
  SParam "MAV_CMD" 189 2;
  SParam "MAV_CMD" 189 3;
  SParam "MAV_CMD" 189 4;
  SParam "MAV_CMD" 189 5;
  SParam "MAV_CMD" 189 6;
  SParam "MAV_CMD" 189 7;
  SConst "MAV_CMD_DO_RALLY_LAND" 190;
  SEntry "MAV_CMD" 190 "MAV_CMD_DO_RALLY_LAND";
  SParam "MAV_CMD" 190 1;
  SParam "MAV_CMD" 190 2;
  SParam "MAV_CMD" 190 3;
  SParam "MAV_CMD" 190 4;
  SParam "MAV_CMD" 190 5;
  SParam "MAV_CMD" 190 6;
  SParam "MAV_CMD" 190 7;
  SConst "MAV_CMD_DO_GO_AROUND" 191;
  SEntry "MAV_CMD" 191 "MAV_CMD_DO_GO_AROUND";
  SParam "MAV_CMD" 191 1;
  SParam "MAV_CMD" 191 2;
  SParam "MAV_CMD" 191 3;
  SParam "MAV_CMD" 191 4;
  SParam "MAV_CMD" 191 5;
  SParam "MAV_CMD" 191 6;
  SParam "MAV_CMD" 191 7;
  SConst "MAV_CMD_DO_CONTROL_VIDEO" 200;
  SEntry "MAV_CMD" 200 "MAV_CMD_DO_CONTROL_VIDEO";
  SParam "MAV_CMD" 200 1;
  SParam "MAV_CMD" 200 2;
  SParam "MAV_CMD" 200 3;
  SParam "MAV_CMD" 200 4;
  SParam "MAV_CMD" 200 5;
  SParam "MAV_CMD" 200 6;
  SParam "MAV_CMD" 200 7;
  SConst "MAV_CMD_DO_SET_ROI" 201;
  SEntry "MAV_CMD" 201 "MAV_CMD_DO_SET_ROI";
  SParam "MAV_CMD" 201 1;
  SParam "MAV_CMD" 201 2;
  SParam "MAV_CMD" 201 3;
  SParam "MAV_CMD" 201 4;
  SParam "MAV_CMD" 201 5;
  SParam "MAV_CMD" 201 6;
  SParam "MAV_CMD" 201 7;
  SConst "MAV_CMD_DO_DIGICAM_CONFIGURE" 202;
  SEntry "MAV_CMD" 202 "MAV_CMD_DO_DIGICAM_CONFIGURE";
  SParam "MAV_CMD" 202 1;
  SParam "MAV_CMD" 202 2;
  SParam "MAV_CMD" 202 3;
  SParam "MAV_CMD" 202 4;
  SParam "MAV_CMD" 202 5;
  SParam "MAV_CMD" 202 6;
  SParam "MAV_CMD" 202 7;
  SConst "MAV_CMD_DO_DIGICAM_CONTROL" 203;
  SEntry "MAV_CMD" 203 "MAV_CMD_DO_DIGICAM_CONTROL";
  SParam "MAV_CMD" 203 1;
  SParam "MAV_CMD" 203 2;
  SParam "MAV_CMD" 203 3;
  SParam "MAV_CMD" 203 4;
  SParam "MAV_CMD" 203 5;
  SParam "MAV_CMD" 203 6;
  SParam "MAV_CMD" 203 7;
  SConst "MAV_CMD_DO_MOUNT_CONFIGURE" 204;
  SEntry "MAV_CMD" 204 "MAV_CMD_DO_MOUNT_CONFIGURE";
  SParam "MAV_CMD" 204 1;
  SParam "MAV_CMD" 204 2;
  SParam "MAV_CMD" 204 3;
  SParam "MAV_CMD" 204 4;
  SParam "MAV_CMD" 204 5;
  SParam "MAV_CMD" 204 6;
  SParam "MAV_CMD" 204 7;
  SConst "MAV_CMD_DO_MOUNT_CONTROL" 205;
  SEntry "MAV_CMD" 205 "MAV_CMD_DO_MOUNT_CONTROL";
  SParam "MAV_CMD" 205 1;
  SParam "MAV_CMD" 205 2;
  SParam "MAV_CMD" 205 3;
  SParam "MAV_CMD" 205 4;
  SParam "MAV_CMD" 205 5;
  SParam "MAV_CMD" 205 6;
  SParam "MAV_CMD" 205 7;
  SConst "MAV_CMD_DO_SET_CAM_TRIGG_DIST" 206;
  SEntry "MAV_CMD" 206 "MAV_CMD_DO_SET_CAM_TRIGG_DIST";
  SParam "MAV_CMD" 206 1;
  SParam "MAV_CMD" 206 2;
  SParam "MAV_CMD" 206 3;
  SParam "MAV_CMD" 206 4;
  SParam "MAV_CMD" 206 5;
  SParam "MAV_CMD" 206 6;
  SParam "MAV_CMD" 206 7;
  SConst "MAV_CMD_DO_FENCE_ENABLE" 207;
  SEntry "MAV_CMD" 207 "MAV_CMD_DO_FENCE_ENABLE";
  SParam "MAV_CMD" 207 1;
  SParam "MAV_CMD" 207 2;
  SParam "MAV_CMD" 207 3;
  SParam "MAV_CMD" 207 4;
  SParam "MAV_CMD" 207 5;
  SParam "MAV_CMD" 207 6;
  SParam "MAV_CMD" 207 7;
  SConst "MAV_CMD_DO_PARACHUTE" 208;
  SEntry "MAV_CMD" 208 "MAV_CMD_DO_PARACHUTE";
  SParam "MAV_CMD" 208 1;
  SParam "MAV_CMD" 208 2;
  SParam "MAV_CMD" 208 3;
  SParam "MAV_CMD" 208 4;
  SParam "MAV_CMD" 208 5;
  SParam "MAV_CMD" 208 6;
  SParam "MAV_CMD" 208 7;
  SConst "MAV_CMD_DO_INVERTED_FLIGHT" 210;
  SEntry "MAV_CMD" 210 "MAV_CMD_DO_INVERTED_FLIGHT";
  SParam "MAV_CMD" 210 1;
  SParam "MAV_CMD" 210 2;
  SParam "MAV_CMD" 210 3;
  SParam "MAV_CMD" 210 4;
  SParam "MAV_CMD" 210 5;
  SParam "MAV_CMD" 210 6;
  SParam "MAV_CMD" 210 7;
  SConst "MAV_CMD_DO_MOUNT_CONTROL_QUAT" 220;
  SEntry "MAV_CMD" 220 "MAV_CMD_DO_MOUNT_CONTROL_QUAT";
  SParam "MAV_CMD" 220 1;
  SParam "MAV_CMD" 220 2;
  SParam "MAV_CMD" 220 3;
  SParam "MAV_CMD" 220 4;
  SParam "MAV_CMD" 220 5;
  SParam "MAV_CMD" 220 6;
  SParam "MAV_CMD" 220 7;
  SConst "MAV_CMD_DO_GUIDED_MASTER" 221;
  SEntry "MAV_CMD" 221 "MAV_CMD_DO_GUIDED_MASTER";
  SParam "MAV_CMD" 221 1;
  SParam "MAV_CMD" 221 2;
  SParam "MAV_CMD" 221 3;
  SParam "MAV_CMD" 221 4;
  SParam "MAV_CMD" 221 5;
  SParam "MAV_CMD" 221 6;
  SParam "MAV_CMD" 221 7;
  SConst "MAV_CMD_DO_GUIDED_LIMITS" 222;
  SEntry "MAV_CMD" 222 "MAV_CMD_DO_GUIDED_LIMITS";
  SParam "MAV_CMD" 222 1;
  SParam "MAV_CMD" 222 2;
  SParam "MAV_CMD" 222 3;
  SParam "MAV_CMD" 222 4;
  SParam "MAV_CMD" 222 5;
  SParam "MAV_CMD" 222 6;
  SParam "MAV_CMD" 222 7;
  SConst "MAV_CMD_DO_LAST" 240;
  SEntry "MAV_CMD" 240 "MAV_CMD_DO_LAST";
  SParam "MAV_CMD" 240 1;
  SParam "MAV_CMD" 240 2;
  SParam "MAV_CMD" 240 3;
  SParam "MAV_CMD" 240 4;
  SParam "MAV_CMD" 240 5;
  SParam "MAV_CMD" 240 6;
  SParam "MAV_CMD" 240 7;
  SConst "MAV_CMD_PREFLIGHT_CALIBRATION" 241;
  SEntry "MAV_CMD" 241 "MAV_CMD_PREFLIGHT_CALIBRATION";
  SParam "MAV_CMD" 241 1;
  SParam "MAV_CMD" 241 2;
  SParam "MAV_CMD" 241 3;
  SParam "MAV_CMD" 241 4;
  SParam "MAV_CMD" 241 5;
  SParam "MAV_CMD" 241 6;
  SParam "MAV_CMD" 241 7;
  SConst "MAV_CMD_PREFLIGHT_SET_SENSOR_OFFSETS" 242;
  SEntry "MAV_CMD" 242 "MAV_CMD_PREFLIGHT_SET_SENSOR_OFFSETS";
  SParam "MAV_CMD" 242 1;
  SParam "MAV_CMD" 242 2;
  SParam "MAV_CMD" 242 3;
  SParam "MAV_CMD" 242 4;
  SParam "MAV_CMD" 242 5;
  SParam "MAV_CMD" 242 6;
  SParam "MAV_CMD" 242 7;
  SConst "MAV_CMD_PREFLIGHT_UAVCAN" 243;
  SEntry "MAV_CMD" 243 "MAV_CMD_PREFLIGHT_UAVCAN";
  SParam "MAV_CMD" 243 1;
  SParam "MAV_CMD" 243 2;
  SParam "MAV_CMD" 243 3;
  SParam "MAV_CMD" 243 4;
  SParam "MAV_CMD" 243 5;
  SParam "MAV_CMD" 243 6;
  SParam "MAV_CMD" 243 7;
  SConst "MAV_CMD_PREFLIGHT_STORAGE" 245;
  SEntry "MAV_CMD" 245 "MAV_CMD_PREFLIGHT_STORAGE";
  SParam "MAV_CMD" 245 1;
  SParam "MAV_CMD" 245 2;
  SParam "MAV_CMD" 245 3;
  SParam "MAV_CMD" 245 4;
  SParam "MAV_CMD" 245 5;
  SParam "MAV_CMD" 245 6;
  SParam "MAV_CMD" 245 7;
  SConst "MAV_CMD_PREFLIGHT_REBOOT_SHUTDOWN" 246;
  SEntry "MAV_CMD" 246 "MAV_CMD_PREFLIGHT_REBOOT_SHUTDOWN";
  SParam "MAV_CMD" 246 1;
  SParam "MAV_CMD" 246 2;
  SParam "MAV_CMD" 246 3;
  SParam "MAV_CMD" 246 4;
  SParam "MAV_CMD" 246 5;
  SParam "MAV_CMD" 246 6;
  SParam "MAV_CMD" 246 7;
  SConst "MAV_CMD_OVERRIDE_GOTO" 252;
  SEntry "MAV_CMD" 252 "MAV_CMD_OVERRIDE_GOTO";
  SParam "MAV_CMD" 252 1;
  SParam "MAV_CMD" 252 2;
  SParam "MAV_CMD" 252 3;
  SParam "MAV_CMD" 252 4;
  SParam "MAV_CMD" 252 5;
  SParam "MAV_CMD" 252 6;
  SParam "MAV_CMD" 252 7;
  SConst "MAV_CMD_MISSION_START" 300;
  SEntry "MAV_CMD" 300 "MAV_CMD_MISSION_START";
  SParam "MAV_CMD" 300 1;
  SParam "MAV_CMD" 300 2;
  SParam "MAV_CMD" 300 3;
  SParam "MAV_CMD" 300 4;
  SParam "MAV_CMD" 300 5;
  SParam "MAV_CMD" 300 6;
  SParam "MAV_CMD" 300 7;
  SConst "MAV_CMD_COMPONENT_ARM_DISARM" 400;
  SEntry "MAV_CMD" 400 "MAV_CMD_COMPONENT_ARM_DISARM";
  SParam "MAV_CMD" 400 1;
  SParam "MAV_CMD" 400 2;
  SParam "MAV_CMD" 400 3;
  SParam "MAV_CMD" 400 4;
  SParam "MAV_CMD" 400 5;
  SParam "MAV_CMD" 400 6;
  SParam "MAV_CMD" 400 7;
  SConst "MAV_CMD_GET_HOME_POSITION" 410;
  SEntry "MAV_CMD" 410 "MAV_CMD_GET_HOME_POSITION";
  SParam "MAV_CMD" 410 1;
  SParam "MAV_CMD" 410 2;
  SParam "MAV_CMD" 410 3;
  SParam "MAV_CMD" 410 4;
  SParam "MAV_CMD" 410 5;
  SParam "MAV_CMD" 410 6;
  SParam "MAV_CMD" 410 7;
  SConst "MAV_CMD_START_RX_PAIR" 500;
  SEntry "MAV_CMD" 500 "MAV_CMD_START_RX_PAIR";
  SParam "MAV_CMD" 500 1;
  SParam "MAV_CMD" 500 2;
  SParam "MAV_CMD" 500 3;
  SParam "MAV_CMD" 500 4;
  SParam "MAV_CMD" 500 5;
  SParam "MAV_CMD" 500 6;
  SParam "MAV_CMD" 500 7;
  SConst "MAV_CMD_GET_MESSAGE_INTERVAL" 510;
  SEntry "MAV_CMD" 510 "MAV_CMD_GET_MESSAGE_INTERVAL";
  SParam "MAV_CMD" 510 1;
  SParam "MAV_CMD" 510 2;
  SParam "MAV_CMD" 510 3;
  SParam "MAV_CMD" 510 4;
  SParam "MAV_CMD" 510 5;
  SParam "MAV_CMD" 510 6;
  SParam "MAV_CMD" 510 7;
  SConst "MAV_CMD_SET_MESSAGE_INTERVAL" 511;
  SEntry "MAV_CMD" 511 "MAV_CMD_SET_MESSAGE_INTERVAL";
  SParam "MAV_CMD" 511 1;
  SParam "MAV_CMD" 511 2;
  SParam "MAV_CMD" 511 3;
  SParam "MAV_CMD" 511 4;
  SParam "MAV_CMD" 511 5;
  SParam "MAV_CMD" 511 6;
  SParam "MAV_CMD" 511 7;
  SConst "MAV_CMD_REQUEST_AUTOPILOT_CAPABILITIES" 520;
  SEntry "MAV_CMD" 520 "MAV_CMD_REQUEST_AUTOPILOT_CAPABILITIES";
  SParam "MAV_CMD" 520 1;
  SParam "MAV_CMD" 520 2;
  SParam "MAV_CMD" 520 3;
  SParam "MAV_CMD" 520 4;
  SParam "MAV_CMD" 520 5;
  SParam "MAV_CMD" 520 6;
  SParam "MAV_CMD" 520 7;
  SConst "MAV_CMD_IMAGE_START_CAPTURE" 2000;
  SEntry "MAV_CMD" 2000 "MAV_CMD_IMAGE_START_CAPTURE";
  SParam "MAV_CMD" 2000 1;
  SParam "MAV_CMD" 2000 2;
  SParam "MAV_CMD" 2000 3;
  SParam "MAV_CMD" 2000 4;
  SParam "MAV_CMD" 2000 5;
  SParam "MAV_CMD" 2000 6;
  SParam "MAV_CMD" 2000 7;
  SConst "MAV_CMD_IMAGE_STOP_CAPTURE" 2001;
  SEntry "MAV_CMD" 2001 "MAV_CMD_IMAGE_STOP_CAPTURE";
  SParam "MAV_CMD" 2001 1;
  SParam "MAV_CMD" 2001 2;
  SParam "MAV_CMD" 2001 3;
  SParam "MAV_CMD" 2001 4;
  SParam "MAV_CMD" 2001 5;
  SParam "MAV_CMD" 2001 6;
  SParam "MAV_CMD" 2001 7;
  SConst "MAV_CMD_DO_TRIGGER_CONTROL" 2003;
  SEntry "MAV_CMD" 2003 "MAV_CMD_DO_TRIGGER_CONTROL";
  SParam "MAV_CMD" 2003 1;
  SParam "MAV_CMD" 2003 2;
  SParam "MAV_CMD" 2003 3;
  SParam "MAV_CMD" 2003 4;
  SParam "MAV_CMD" 2003 5;
  SParam "MAV_CMD" 2003 6;
  SParam "MAV_CMD" 2003 7;
  SConst "MAV_CMD_VIDEO_START_CAPTURE" 2500;
  SEntry "MAV_CMD" 2500 "MAV_CMD_VIDEO_START_CAPTURE";
  SParam "MAV_CMD" 2500 1;
  SParam "MAV_CMD" 2500 2;
  SParam "MAV_CMD" 2500 3;
  SParam "MAV_CMD" 2500 4;
  SParam "MAV_CMD" 2500 5;
  SParam "MAV_CMD" 2500 6;
  SParam "MAV_CMD" 2500 7;
  SConst "MAV_CMD_VIDEO_STOP_CAPTURE" 2501;
  SEntry "MAV_CMD" 2501 "MAV_CMD_VIDEO_STOP_CAPTURE";
  SParam "MAV_CMD" 2501 1;
  SParam "MAV_CMD" 2501 2;
  SParam "MAV_CMD" 2501 3;
  SParam "MAV_CMD" 2501 4;
  SParam "MAV_CMD" 2501 5;
  SParam "MAV_CMD" 2501 6;
  SParam "MAV_CMD" 2501 7;
  SConst "MAV_CMD_PANORAMA_CREATE" 2800;
  SEntry "MAV_CMD" 2800 "MAV_CMD_PANORAMA_CREATE";
  SParam "MAV_CMD" 2800 1;
  SParam "MAV_CMD" 2800 2;
  SParam "MAV_CMD" 2800 3;
  SParam "MAV_CMD" 2800 4;
  SParam "MAV_CMD" 2800 5;
  SParam "MAV_CMD" 2800 6;
  SParam "MAV_CMD" 2800 7;
  SConst "MAV_CMD_DO_VTOL_TRANSITION" 3000;
  SEntry "MAV_CMD" 3000 "MAV_CMD_DO_VTOL_TRANSITION";
  SParam "MAV_CMD" 3000 1;
  SParam "MAV_CMD" 3000 2;
  SParam "MAV_CMD" 3000 3;
  SParam "MAV_CMD" 3000 4;
  SParam "MAV_CMD" 3000 5;
  SParam "MAV_CMD" 3000 6;
  SParam "MAV_CMD" 3000 7;
  SConst "MAV_CMD_PAYLOAD_PREPARE_DEPLOY" 30001;
  SEntry "MAV_CMD" 30001 "MAV_CMD_PAYLOAD_PREPARE_DEPLOY";
  SParam "MAV_CMD" 30001 1;
  SParam "MAV_CMD" 30001 2;
  SParam "MAV_CMD" 30001 3;
  SParam "MAV_CMD" 30001 4;
  SParam "MAV_CMD" 30001 5;
  SParam "MAV_CMD" 30001 6;
  SParam "MAV_CMD" 30001 7;
  SConst "MAV_CMD_PAYLOAD_CONTROL_DEPLOY" 30002;
  SEntry "MAV_CMD" 30002 "MAV_CMD_PAYLOAD_CONTROL_DEPLOY";
  SParam "MAV_CMD" 30002 1;
  SParam "MAV_CMD" 30002 2;
  SParam "MAV_CMD" 30002 3;
  SParam "MAV_CMD" 30002 4;
  SParam "MAV_CMD" 30002 5;
  SParam "MAV_CMD" 30002 6;
  SParam "MAV_CMD" 30002 7;
  SConst "MAV_CMD_ENUM_END" 30003;
  SEntry "MAV_CMD" 30003 "MAV_CMD_ENUM_END";
  SEnum "MAV_DATA_STREAM";
  SConst "MAV_DATA_STREAM_ALL" 0;
  SEntry "MAV_DATA_STREAM" 0 "MAV_DATA_STREAM_ALL";
  SConst "MAV_DATA_STREAM_RAW_SENSORS" 1;
  SEntry "MAV_DATA_STREAM" 1 "MAV_DATA_STREAM_RAW_SENSORS";
  SConst "MAV_DATA_STREAM_EXTENDED_STATUS" 2;
  SEntry "MAV_DATA_STREAM" 2 "MAV_DATA_STREAM_EXTENDED_STATUS";
  SConst "MAV_DATA_STREAM_RC_CHANNELS" 3;
  SEntry "MAV_DATA_STREAM" 3 "MAV_DATA_STREAM_RC_CHANNELS";
  SConst "MAV_DATA_STREAM_RAW_CONTROLLER" 4;
  SEntry "MAV_DATA_STREAM" 4 "MAV_DATA_STREAM_RAW_CONTROLLER";
  SConst "MAV_DATA_STREAM_POSITION" 6;
  SEntry "MAV_DATA_STREAM" 6 "MAV_DATA_STREAM_POSITION";
  SConst "MAV_DATA_STREAM_EXTRA1" 10;
  SEntry "MAV_DATA_STREAM" 10 "MAV_DATA_STREAM_EXTRA1";
  SConst "MAV_DATA_STREAM_EXTRA2" 11;
  SEntry "MAV_DATA_STREAM" 11 "MAV_DATA_STREAM_EXTRA2";
  SConst "MAV_DATA_STREAM_EXTRA3" 12;
  SEntry "MAV_DATA_STREAM" 12 "MAV_DATA_STREAM_EXTRA3";
  SConst "MAV_DATA_STREAM_ENUM_END" 13;
  SEntry "MAV_DATA_STREAM" 13 "MAV_DATA_STREAM_ENUM_END";
  SEnum "MAV_ROI";
  SConst "MAV_ROI_NONE" 0;
  SEntry "MAV_ROI" 0 "MAV_ROI_NONE";
  SConst "MAV_ROI_WPNEXT" 1;
  SEntry "MAV_ROI" 1 "MAV_ROI_WPNEXT";
  SConst "MAV_ROI_WPINDEX" 2;
  SEntry "MAV_ROI" 2 "MAV_ROI_WPINDEX";
  SConst "MAV_ROI_LOCATION" 3;
  SEntry "MAV_ROI" 3 "MAV_ROI_LOCATION";
  SConst "MAV_ROI_TARGET" 4;
  SEntry "MAV_ROI" 4 "MAV_ROI_TARGET";
  SConst "MAV_ROI_ENUM_END" 5;
  SEntry "MAV_ROI" 5 "MAV_ROI_ENUM_END";
  SEnum "MAV_CMD_ACK";
  SConst "MAV_CMD_ACK_OK" 1;
  SEntry "MAV_CMD_ACK" 1 "MAV_CMD_ACK_OK";
  SParam "MAV_CMD_ACK" 1 1;
  SParam "MAV_CMD_ACK" 1 2;
  SParam "MAV_CMD_ACK" 1 3;
  SParam "MAV_CMD_ACK" 1 4;
  SParam "MAV_CMD_ACK" 1 5;
  SParam "MAV_CMD_ACK" 1 6;
  SParam "MAV_CMD_ACK" 1 7;
  SConst "MAV_CMD_ACK_ERR_FAIL" 2;
  SEntry "MAV_CMD_ACK" 2 "MAV_CMD_ACK_ERR_FAIL";
  SParam "MAV_CMD_ACK" 2 1;
  SParam "MAV_CMD_ACK" 2 2;
  SParam "MAV_CMD_ACK" 2 3;
  SParam "MAV_CMD_ACK" 2 4;
  SParam "MAV_CMD_ACK" 2 5;
  SParam "MAV_CMD_ACK" 2 6;
  SParam "MAV_CMD_ACK" 2 7;
  SConst "MAV_CMD_ACK_ERR_ACCESS_DENIED" 3;
  SEntry "MAV_CMD_ACK" 3 "MAV_CMD_ACK_ERR_ACCESS_DENIED";
  SParam "MAV_CMD_ACK" 3 1;
  SParam "MAV_CMD_ACK" 3 2;
  SParam "MAV_CMD_ACK" 3 3;
  SParam "MAV_CMD_ACK" 3 4;
  SParam "MAV_CMD_ACK" 3 5;
  SParam "MAV_CMD_ACK" 3 6;
  SParam "MAV_CMD_ACK" 3 7;
  SConst "MAV_CMD_ACK_ERR_NOT_SUPPORTED" 4;
  SEntry "MAV_CMD_ACK" 4 "MAV_CMD_ACK_ERR_NOT_SUPPORTED";
  SParam "MAV_CMD_ACK" 4 1;
  SParam "MAV_CMD_ACK" 4 2;
  SParam "MAV_CMD_ACK" 4 3;
  SParam "MAV_CMD_ACK" 4 4;
  SParam "MAV_CMD_ACK" 4 5;
  SParam "MAV_CMD_ACK" 4 6;
  SParam "MAV_CMD_ACK" 4 7;
  SConst "MAV_CMD_ACK_ERR_COORDINATE_FRAME_NOT_SUPPORTED" 5;
  SEntry "MAV_CMD_ACK" 5 "MAV_CMD_ACK_ERR_COORDINATE_FRAME_NOT_SUPPORTED";
  SParam "MAV_CMD_ACK" 5 1;
  SParam "MAV_CMD_ACK" 5 2;
  SParam "MAV_CMD_ACK" 5 3;
  SParam "MAV_CMD_ACK" 5 4;
  SParam "MAV_CMD_ACK" 5 5;
  SParam "MAV_CMD_ACK" 5 6;
  SParam "MAV_CMD_ACK" 5 7;
  SConst "MAV_CMD_ACK_ERR_COORDINATES_OUT_OF_RANGE" 6;
  SEntry "MAV_CMD_ACK" 6 "MAV_CMD_ACK_ERR_COORDINATES_OUT_OF_RANGE";
  SParam "MAV_CMD_ACK" 6 1;
  SParam "MAV_CMD_ACK" 6 2;
  SParam "MAV_CMD_ACK" 6 3;
  SParam "MAV_CMD_ACK" 6 4;
  SParam "MAV_CMD_ACK" 6 5;
  SParam "MAV_CMD_ACK" 6 6;
  SParam "MAV_CMD_ACK" 6 7;
  SConst "MAV_CMD_ACK_ERR_X_LAT_OUT_OF_RANGE" 7;
  SEntry "MAV_CMD_ACK" 7 "MAV_CMD_ACK_ERR_X_LAT_OUT_OF_RANGE";
  SParam "MAV_CMD_ACK" 7 1;
  SParam "MAV_CMD_ACK" 7 2;
  SParam "MAV_CMD_ACK" 7 3;
  SParam "MAV_CMD_ACK" 7 4;
  SParam "MAV_CMD_ACK" 7 5;
  SParam "MAV_CMD_ACK" 7 6;
  SParam "MAV_CMD_ACK" 7 7;
  SConst "MAV_CMD_ACK_ERR_Y_LON_OUT_OF_RANGE" 8;
  SEntry "MAV_CMD_ACK" 8 "MAV_CMD_ACK_ERR_Y_LON_OUT_OF_RANGE";
  SParam "MAV_CMD_ACK" 8 1;
  SParam "MAV_CMD_ACK" 8 2;
  SParam "MAV_CMD_ACK" 8 3;
  SParam "MAV_CMD_ACK" 8 4;
  SParam "MAV_CMD_ACK" 8 5;
  SParam "MAV_CMD_ACK" 8 6;
  SParam "MAV_CMD_ACK" 8 7;
  SConst "MAV_CMD_ACK_ERR_Z_ALT_OUT_OF_RANGE" 9;
  SEntry "MAV_CMD_ACK" 9 "MAV_CMD_ACK_ERR_Z_ALT_OUT_OF_RANGE";
  SParam "MAV_CMD_ACK" 9 1;
  SParam "MAV_CMD_ACK" 9 2;
  SParam "MAV_CMD_ACK" 9 3;
  SParam "MAV_CMD_ACK" 9 4;
  SParam "MAV_CMD_ACK" 9 5;
  SParam "MAV_CMD_ACK" 9 6;
  SParam "MAV_CMD_ACK" 9 7;
  SConst "MAV_CMD_ACK_ENUM_END" 10;
  SEntry "MAV_CMD_ACK" 10 "MAV_CMD_ACK_ENUM_END";
  SEnum "MAV_PARAM_TYPE";
  SConst "MAV_PARAM_TYPE_UINT8" 1;
  SEntry "MAV_PARAM_TYPE" 1 "MAV_PARAM_TYPE_UINT8";
  SConst "MAV_PARAM_TYPE_INT8" 2;
  SEntry "MAV_PARAM_TYPE" 2 "MAV_PARAM_TYPE_INT8";
  SConst "MAV_PARAM_TYPE_UINT16" 3;
  SEntry "MAV_PARAM_TYPE" 3 "MAV_PARAM_TYPE_UINT16";
  SConst "MAV_PARAM_TYPE_INT16" 4;
  SEntry "MAV_PARAM_TYPE" 4 "MAV_PARAM_TYPE_INT16";
  SConst "MAV_PARAM_TYPE_UINT32" 5;
  SEntry "MAV_PARAM_TYPE" 5 "MAV_PARAM_TYPE_UINT32";
  SConst "MAV_PARAM_TYPE_INT32" 6;
  SEntry "MAV_PARAM_TYPE" 6 "MAV_PARAM_TYPE_INT32";
  SConst "MAV_PARAM_TYPE_UINT64" 7;
  SEntry "MAV_PARAM_TYPE" 7 "MAV_PARAM_TYPE_UINT64";
  SConst "MAV_PARAM_TYPE_INT64" 8;
  SEntry "MAV_PARAM_TYPE" 8 "MAV_PARAM_TYPE_INT64";
  SConst "MAV_PARAM_TYPE_REAL32" 9;
  SEntry "MAV_PARAM_TYPE" 9 "MAV_PARAM_TYPE_REAL32";
  SConst "MAV_PARAM_TYPE_REAL64" 10;
  SEntry "MAV_PARAM_TYPE" 10 "MAV_PARAM_TYPE_REAL64";
  SConst "MAV_PARAM_TYPE_ENUM_END" 11;
  SEntry "MAV_PARAM_TYPE" 11 "MAV_PARAM_TYPE_ENUM_END";
  SEnum "MAV_RESULT";
  SConst "MAV_RESULT_ACCEPTED" 0;
  SEntry "MAV_RESULT" 0 "MAV_RESULT_ACCEPTED";
  SConst "MAV_RESULT_TEMPORARILY_REJECTED" 1;
  SEntry "MAV_RESULT" 1 "MAV_RESULT_TEMPORARILY_REJECTED";
  SConst "MAV_RESULT_DENIED" 2;
  SEntry "MAV_RESULT" 2 "MAV_RESULT_DENIED";
  SConst "MAV_RESULT_UNSUPPORTED" 3;
  SEntry "MAV_RESULT" 3 "MAV_RESULT_UNSUPPORTED";
  SConst "MAV_RESULT_FAILED" 4;
  SEntry "MAV_RESULT" 4 "MAV_RESULT_FAILED";
  SConst "MAV_RESULT_ENUM_END" 5;
  SEntry "MAV_RESULT" 5 "MAV_RESULT_ENUM_END";
  SEnum "MAV_MISSION_RESULT";
  SConst "MAV_MISSION_ACCEPTED" 0;
  SEntry "MAV_MISSION_RESULT" 0 "MAV_MISSION_ACCEPTED";
  SConst "MAV_MISSION_ERROR" 1;
  SEntry "MAV_MISSION_RESULT" 1 "MAV_MISSION_ERROR";
  SConst "MAV_MISSION_UNSUPPORTED_FRAME" 2;
  SEntry "MAV_MISSION_RESULT" 2 "MAV_MISSION_UNSUPPORTED_FRAME";
  SConst "MAV_MISSION_UNSUPPORTED" 3;
  SEntry "MAV_MISSION_RESULT" 3 "MAV_MISSION_UNSUPPORTED";
  SConst "MAV_MISSION_NO_SPACE" 4;
  SEntry "MAV_MISSION_RESULT" 4 "MAV_MISSION_NO_SPACE";
  SConst "MAV_MISSION_INVALID" 5;
  SEntry "MAV_MISSION_RESULT" 5 "MAV_MISSION_INVALID";
  SConst "MAV_MISSION_INVALID_PARAM1" 6;
  SEntry "MAV_MISSION_RESULT" 6 "MAV_MISSION_INVALID_PARAM1";
  SConst "MAV_MISSION_INVALID_PARAM2" 7;
  SEntry "MAV_MISSION_RESULT" 7 "MAV_MISSION_INVALID_PARAM2";
  SConst "MAV_MISSION_INVALID_PARAM3" 8;
  SEntry "MAV_MISSION_RESULT" 8 "MAV_MISSION_INVALID_PARAM3";
  SConst "MAV_MISSION_INVALID_PARAM4" 9;
  SEntry "MAV_MISSION_RESULT" 9 "MAV_MISSION_INVALID_PARAM4";
  SConst "MAV_MISSION_INVALID_PARAM5_X" 10;
  SEntry "MAV_MISSION_RESULT" 10 "MAV_MISSION_INVALID_PARAM5_X";
  SConst "MAV_MISSION_INVALID_PARAM6_Y" 11;
  SEntry "MAV_MISSION_RESULT" 11 "MAV_MISSION_INVALID_PARAM6_Y";
  SConst "MAV_MISSION_INVALID_PARAM7" 12;
  SEntry "MAV_MISSION_RESULT" 12 "MAV_MISSION_INVALID_PARAM7";
  SConst "MAV_MISSION_INVALID_SEQUENCE" 13;
  SEntry "MAV_MISSION_RESULT" 13 "MAV_MISSION_INVALID_SEQUENCE";
  SConst "MAV_MISSION_DENIED" 14;
  SEntry "MAV_MISSION_RESULT" 14 "MAV_MISSION_DENIED";
  SConst "MAV_MISSION_RESULT_ENUM_END" 15;
  SEntry "MAV_MISSION_RESULT" 15 "MAV_MISSION_RESULT_ENUM_END";
  SEnum "MAV_SEVERITY";
  SConst "MAV_SEVERITY_EMERGENCY" 0;
  SEntry "MAV_SEVERITY" 0 "MAV_SEVERITY_EMERGENCY";
  SConst "MAV_SEVERITY_ALERT" 1;
  SEntry "MAV_SEVERITY" 1 "MAV_SEVERITY_ALERT";
  SConst "MAV_SEVERITY_CRITICAL" 2;
  SEntry "MAV_SEVERITY" 2 "MAV_SEVERITY_CRITICAL";
  SConst "MAV_SEVERITY_ERROR" 3;
  SEntry "MAV_SEVERITY" 3 "MAV_SEVERITY_ERROR";
  SConst "MAV_SEVERITY_WARNING" 4;
  SEntry "MAV_SEVERITY" 4 "MAV_SEVERITY_WARNING";
  SConst "MAV_SEVERITY_NOTICE" 5;
  SEntry "MAV_SEVERITY" 5 "MAV_SEVERITY_NOTICE";
  SConst "MAV_SEVERITY_INFO" 6;
  SEntry "MAV_SEVERITY" 6 "MAV_SEVERITY_INFO";
  SConst "MAV_SEVERITY_DEBUG" 7;
  SEntry "MAV_SEVERITY" 7 "MAV_SEVERITY_DEBUG";
  SConst "MAV_SEVERITY_ENUM_END" 8;
  SEntry "MAV_SEVERITY" 8 "MAV_SEVERITY_ENUM_END";
  SEnum "MAV_POWER_STATUS";
  SConst "MAV_POWER_STATUS_BRICK_VALID" 1;
  SEntry "MAV_POWER_STATUS" 1 "MAV_POWER_STATUS_BRICK_VALID";
  SConst "MAV_POWER_STATUS_SERVO_VALID" 2;
  SEntry "MAV_POWER_STATUS" 2 "MAV_POWER_STATUS_SERVO_VALID";
  SConst "MAV_POWER_STATUS_USB_CONNECTED" 4;
  SEntry "MAV_POWER_STATUS" 4 "MAV_POWER_STATUS_USB_CONNECTED";
  SConst "MAV_POWER_STATUS_PERIPH_OVERCURRENT" 8;
  SEntry "MAV_POWER_STATUS" 8 "MAV_POWER_STATUS_PERIPH_OVERCURRENT";
  SConst "MAV_POWER_STATUS_PERIPH_HIPOWER_OVERCURRENT" 16;
  SEntry "MAV_POWER_STATUS" 16 "MAV_POWER_STATUS_PERIPH_HIPOWER_OVERCURRENT";
  SConst "MAV_POWER_STATUS_CHANGED" 32;
  SEntry "MAV_POWER_STATUS" 32 "MAV_POWER_STATUS_CHANGED";
  SConst "MAV_POWER_STATUS_ENUM_END" 33;
  SEntry "MAV_POWER_STATUS" 33 "MAV_POWER_STATUS_ENUM_END";
  SEnum "SERIAL_CONTROL_DEV";
  SConst "SERIAL_CONTROL_DEV_TELEM1" 0;
  SEntry "SERIAL_CONTROL_DEV" 0 "SERIAL_CONTROL_DEV_TELEM1";
  SConst "SERIAL_CONTROL_DEV_TELEM2" 1;
  SEntry "SERIAL_CONTROL_DEV" 1 "SERIAL_CONTROL_DEV_TELEM2";
  SConst "SERIAL_CONTROL_DEV_GPS1" 2;
  SEntry "SERIAL_CONTROL_DEV" 2 "SERIAL_CONTROL_DEV_GPS1";
  SConst "SERIAL_CONTROL_DEV_GPS2" 3;
  SEntry "SERIAL_CONTROL_DEV" 3 "SERIAL_CONTROL_DEV_GPS2";
  SConst "SERIAL_CONTROL_DEV_SHELL" 10;
  SEntry "SERIAL_CONTROL_DEV" 10 "SERIAL_CONTROL_DEV_SHELL";
  SConst "SERIAL_CONTROL_DEV_ENUM_END" 11;
  SEntry "SERIAL_CONTROL_DEV" 11 "SERIAL_CONTROL_DEV_ENUM_END";
  SEnum "SERIAL_CONTROL_FLAG";
  SConst "SERIAL_CONTROL_FLAG_REPLY" 1;
  SEntry "SERIAL_CONTROL_FLAG" 1 "SERIAL_CONTROL_FLAG_REPLY";
  SConst "SERIAL_CONTROL_FLAG_RESPOND" 2;
  SEntry "SERIAL_CONTROL_FLAG" 2 "SERIAL_CONTROL_FLAG_RESPOND";
  SConst "SERIAL_CONTROL_FLAG_EXCLUSIVE" 4;
  SEntry "SERIAL_CONTROL_FLAG" 4 "SERIAL_CONTROL_FLAG_EXCLUSIVE";
  SConst "SERIAL_CONTROL_FLAG_BLOCKING" 8;
  SEntry "SERIAL_CONTROL_FLAG" 8 "SERIAL_CONTROL_FLAG_BLOCKING";
  SConst "SERIAL_CONTROL_FLAG_MULTI" 16;
  SEntry "SERIAL_CONTROL_FLAG" 16 "SERIAL_CONTROL_FLAG_MULTI";
  SConst "SERIAL_CONTROL_FLAG_ENUM_END" 17;
  SEntry "SERIAL_CONTROL_FLAG" 17 "SERIAL_CONTROL_FLAG_ENUM_END";
  SEnum "MAV_DISTANCE_SENSOR";
  SConst "MAV_DISTANCE_SENSOR_LASER" 0;
  SEntry "MAV_DISTANCE_SENSOR" 0 "MAV_DISTANCE_SENSOR_LASER";
  SConst "MAV_DISTANCE_SENSOR_ULTRASOUND" 1;
  SEntry "MAV_DISTANCE_SENSOR" 1 "MAV_DISTANCE_SENSOR_ULTRASOUND";
  SConst "MAV_DISTANCE_SENSOR_INFRARED" 2;
  SEntry "MAV_DISTANCE_SENSOR" 2 "MAV_DISTANCE_SENSOR_INFRARED";
  SConst "MAV_DISTANCE_SENSOR_ENUM_END" 3;
  SEntry "MAV_DISTANCE_SENSOR" 3 "MAV_DISTANCE_SENSOR_ENUM_END";
  SEnum "MAV_SENSOR_ORIENTATION";
  SConst "MAV_SENSOR_ROTATION_NONE" 0;
  SEntry "MAV_SENSOR_ORIENTATION" 0 "MAV_SENSOR_ROTATION_NONE";
  SConst "MAV_SENSOR_ROTATION_YAW_45" 1;
  SEntry "MAV_SENSOR_ORIENTATION" 1 "MAV_SENSOR_ROTATION_YAW_45";
  SConst "MAV_SENSOR_ROTATION_YAW_90" 2;
  SEntry "MAV_SENSOR_ORIENTATION" 2 "MAV_SENSOR_ROTATION_YAW_90";
  SConst "MAV_SENSOR_ROTATION_YAW_135" 3;
  SEntry "MAV_SENSOR_ORIENTATION" 3 "MAV_SENSOR_ROTATION_YAW_135";
  SConst "MAV_SENSOR_ROTATION_YAW_180" 4;
  SEntry "MAV_SENSOR_ORIENTATION" 4 "MAV_SENSOR_ROTATION_YAW_180";
  SConst "MAV_SENSOR_ROTATION_YAW_225" 5;
  SEntry "MAV_SENSOR_ORIENTATION" 5 "MAV_SENSOR_ROTATION_YAW_225";
  SConst "MAV_SENSOR_ROTATION_YAW_270" 6;
  SEntry "MAV_SENSOR_ORIENTATION" 6 "MAV_SENSOR_ROTATION_YAW_270";
  SConst "MAV_SENSOR_ROTATION_YAW_315" 7;
  SEntry "MAV_SENSOR_ORIENTATION" 7 "MAV_SENSOR_ROTATION_YAW_315";
  SConst "MAV_SENSOR_ROTATION_ROLL_180" 8;
  SEntry "MAV_SENSOR_ORIENTATION" 8 "MAV_SENSOR_ROTATION_ROLL_180";
  SConst "MAV_SENSOR_ROTATION_ROLL_180_YAW_45" 9;
  SEntry "MAV_SENSOR_ORIENTATION" 9 "MAV_SENSOR_ROTATION_ROLL_180_YAW_45";
  SConst "MAV_SENSOR_ROTATION_ROLL_180_YAW_90" 10;
  SEntry "MAV_SENSOR_ORIENTATION" 10 "MAV_SENSOR_ROTATION_ROLL_180_YAW_90";
  SConst "MAV_SENSOR_ROTATION_ROLL_180_YAW_135" 11;
  SEntry "MAV_SENSOR_ORIENTATION" 11 "MAV_SENSOR_ROTATION_ROLL_180_YAW_135";
  SConst "MAV_SENSOR_ROTATION_PITCH_180" 12;
  SEntry "MAV_SENSOR_ORIENTATION" 12 "MAV_SENSOR_ROTATION_PITCH_180";
  SConst "MAV_SENSOR_ROTATION_ROLL_180_YAW_225" 13;
  SEntry "MAV_SENSOR_ORIENTATION" 13 "MAV_SENSOR_ROTATION_ROLL_180_YAW_225";
  SConst "MAV_SENSOR_ROTATION_ROLL_180_YAW_270" 14;
  SEntry "MAV_SENSOR_ORIENTATION" 14 "MAV_SENSOR_ROTATION_ROLL_180_YAW_270";
  SConst "MAV_SENSOR_ROTATION_ROLL_180_YAW_315" 15;
  SEntry "MAV_SENSOR_ORIENTATION" 15 "MAV_SENSOR_ROTATION_ROLL_180_YAW_315";
  SConst "MAV_SENSOR_ROTATION_ROLL_90" 16;
  SEntry "MAV_SENSOR_ORIENTATION" 16 "MAV_SENSOR_ROTATION_ROLL_90";
  SConst "MAV_SENSOR_ROTATION_ROLL_90_YAW_45" 17;
  SEntry "MAV_SENSOR_ORIENTATION" 17 "MAV_SENSOR_ROTATION_ROLL_90_YAW_45";
  SConst "MAV_SENSOR_ROTATION_ROLL_90_YAW_90" 18;
  SEntry "MAV_SENSOR_ORIENTATION" 18 "MAV_SENSOR_ROTATION_ROLL_90_YAW_90";
  SConst "MAV_SENSOR_ROTATION_ROLL_90_YAW_135" 19;
  SEntry "MAV_SENSOR_ORIENTATION" 19 "MAV_SENSOR_ROTATION_ROLL_90_YAW_135";
  SConst "MAV_SENSOR_ROTATION_ROLL_270" 20;
  SEntry "MAV_SENSOR_ORIENTATION" 20 "MAV_SENSOR_ROTATION_ROLL_270";
  SConst "MAV_SENSOR_ROTATION_ROLL_270_YAW_45" 21;
  SEntry "MAV_SENSOR_ORIENTATION" 21 "MAV_SENSOR_ROTATION_ROLL_270_YAW_45";
  SConst "MAV_SENSOR_ROTATION_ROLL_270_YAW_90" 22;
  SEntry "MAV_SENSOR_ORIENTATION" 22 "MAV_SENSOR_ROTATION_ROLL_270_YAW_90";
  SConst "MAV_SENSOR_ROTATION_ROLL_270_YAW_135" 23;
  SEntry "MAV_SENSOR_ORIENTATION" 23 "MAV_SENSOR_ROTATION_ROLL_270_YAW_135";
  SConst "MAV_SENSOR_ROTATION_PITCH_90" 24;
  SEntry "MAV_SENSOR_ORIENTATION" 24 "MAV_SENSOR_ROTATION_PITCH_90";
  SConst "MAV_SENSOR_ROTATION_PITCH_270" 25;
  SEntry "MAV_SENSOR_ORIENTATION" 25 "MAV_SENSOR_ROTATION_PITCH_270";
  SConst "MAV_SENSOR_ROTATION_PITCH_180_YAW_90" 26;
  SEntry "MAV_SENSOR_ORIENTATION" 26 "MAV_SENSOR_ROTATION_PITCH_180_YAW_90";
  SConst "MAV_SENSOR_ROTATION_PITCH_180_YAW_270" 27;
  SEntry "MAV_SENSOR_ORIENTATION" 27 "MAV_SENSOR_ROTATION_PITCH_180_YAW_270";
  SConst "MAV_SENSOR_ROTATION_ROLL_90_PITCH_90" 28;
  SEntry "MAV_SENSOR_ORIENTATION" 28 "MAV_SENSOR_ROTATION_ROLL_90_PITCH_90";
  SConst "MAV_SENSOR_ROTATION_ROLL_180_PITCH_90" 29;
  SEntry "MAV_SENSOR_ORIENTATION" 29 "MAV_SENSOR_ROTATION_ROLL_180_PITCH_90";
  SConst "MAV_SENSOR_ROTATION_ROLL_270_PITCH_90" 30;
  SEntry "MAV_SENSOR_ORIENTATION" 30 "MAV_SENSOR_ROTATION_ROLL_270_PITCH_90";
  SConst "MAV_SENSOR_ROTATION_ROLL_90_PITCH_180" 31;
  SEntry "MAV_SENSOR_ORIENTATION" 31 "MAV_SENSOR_ROTATION_ROLL_90_PITCH_180";
  SConst "MAV_SENSOR_ROTATION_ROLL_270_PITCH_180" 32;
  SEntry "MAV_SENSOR_ORIENTATION" 32 "MAV_SENSOR_ROTATION_ROLL_270_PITCH_180";
  SConst "MAV_SENSOR_ROTATION_ROLL_90_PITCH_270" 33;
  SEntry "MAV_SENSOR_ORIENTATION" 33 "MAV_SENSOR_ROTATION_ROLL_90_PITCH_270";
  SConst "MAV_SENSOR_ROTATION_ROLL_180_PITCH_270" 34;
  SEntry "MAV_SENSOR_ORIENTATION" 34 "MAV_SENSOR_ROTATION_ROLL_180_PITCH_270";
  SConst "MAV_SENSOR_ROTATION_ROLL_270_PITCH_270" 35;
  SEntry "MAV_SENSOR_ORIENTATION" 35 "MAV_SENSOR_ROTATION_ROLL_270_PITCH_270";
  SConst "MAV_SENSOR_ROTATION_ROLL_90_PITCH_180_YAW_90" 36;
  SEntry "MAV_SENSOR_ORIENTATION" 36 "MAV_SENSOR_ROTATION_ROLL_90_PITCH_180_YAW_90";
  SConst "MAV_SENSOR_ROTATION_ROLL_90_YAW_270" 37;
  SEntry "MAV_SENSOR_ORIENTATION" 37 "MAV_SENSOR_ROTATION_ROLL_90_YAW_270";
  SConst "MAV_SENSOR_ROTATION_ROLL_315_PITCH_315_YAW_315" 38;
  SEntry "MAV_SENSOR_ORIENTATION" 38 "MAV_SENSOR_ROTATION_ROLL_315_PITCH_315_YAW_315";
  SConst "MAV_SENSOR_ORIENTATION_ENUM_END" 39;
  SEntry "MAV_SENSOR_ORIENTATION" 39 "MAV_SENSOR_ORIENTATION_ENUM_END";
  SEnum "MAV_PROTOCOL_CAPABILITY";
  SConst "MAV_PROTOCOL_CAPABILITY_MISSION_FLOAT" 1;
  SEntry "MAV_PROTOCOL_CAPABILITY" 1 "MAV_PROTOCOL_CAPABILITY_MISSION_FLOAT";
  SConst "MAV_PROTOCOL_CAPABILITY_PARAM_FLOAT" 2;
  SEntry "MAV_PROTOCOL_CAPABILITY" 2 "MAV_PROTOCOL_CAPABILITY_PARAM_FLOAT";
  SConst "MAV_PROTOCOL_CAPABILITY_MISSION_INT" 4;
  SEntry "MAV_PROTOCOL_CAPABILITY" 4 "MAV_PROTOCOL_CAPABILITY_MISSION_INT";
  SConst "MAV_PROTOCOL_CAPABILITY_COMMAND_INT" 8;
  SEntry "MAV_PROTOCOL_CAPABILITY" 8 "MAV_PROTOCOL_CAPABILITY_COMMAND_INT";
  SConst "MAV_PROTOCOL_CAPABILITY_PARAM_UNION" 16;
  SEntry "MAV_PROTOCOL_CAPABILITY" 16 "MAV_PROTOCOL_CAPABILITY_PARAM_UNION";
  SConst "MAV_PROTOCOL_CAPABILITY_FTP" 32;
  SEntry "MAV_PROTOCOL_CAPABILITY" 32 "MAV_PROTOCOL_CAPABILITY_FTP";
  SConst "MAV_PROTOCOL_CAPABILITY_SET_ATTITUDE_TARGET" 64;
  SEntry "MAV_PROTOCOL_CAPABILITY" 64 "MAV_PROTOCOL_CAPABILITY_SET_ATTITUDE_TARGET";
  SConst "MAV_PROTOCOL_CAPABILITY_SET_POSITION_TARGET_LOCAL_NED" 128;
  SEntry "MAV_PROTOCOL_CAPABILITY" 128 "MAV_PROTOCOL_CAPABILITY_SET_POSITION_TARGET_LOCAL_NED";
  SConst "MAV_PROTOCOL_CAPABILITY_SET_POSITION_TARGET_GLOBAL_INT" 256;
  SEntry "MAV_PROTOCOL_CAPABILITY" 256 "MAV_PROTOCOL_CAPABILITY_SET_POSITION_TARGET_GLOBAL_INT";
  SConst "MAV_PROTOCOL_CAPABILITY_TERRAIN" 512;
  SEntry "MAV_PROTOCOL_CAPABILITY" 512 "MAV_PROTOCOL_CAPABILITY_TERRAIN";
  SConst "MAV_PROTOCOL_CAPABILITY_SET_ACTUATOR_TARGET" 1024;
  SEntry "MAV_PROTOCOL_CAPABILITY" 1024 "MAV_PROTOCOL_CAPABILITY_SET_ACTUATOR_TARGET";
  SConst "MAV_PROTOCOL_CAPABILITY_FLIGHT_TERMINATION" 2048;
  SEntry "MAV_PROTOCOL_CAPABILITY" 2048 "MAV_PROTOCOL_CAPABILITY_FLIGHT_TERMINATION";
  SConst "MAV_PROTOCOL_CAPABILITY_COMPASS_CALIBRATION" 4096;
  SEntry "MAV_PROTOCOL_CAPABILITY" 4096 "MAV_PROTOCOL_CAPABILITY_COMPASS_CALIBRATION";
  SConst "MAV_PROTOCOL_CAPABILITY_ENUM_END" 4097;
  SEntry "MAV_PROTOCOL_CAPABILITY" 4097 "MAV_PROTOCOL_CAPABILITY_ENUM_END";
  SEnum "MAV_ESTIMATOR_TYPE";
  SConst "MAV_ESTIMATOR_TYPE_NAIVE" 1;
  SEntry "MAV_ESTIMATOR_TYPE" 1 "MAV_ESTIMATOR_TYPE_NAIVE";
  SConst "MAV_ESTIMATOR_TYPE_VISION" 2;
  SEntry "MAV_ESTIMATOR_TYPE" 2 "MAV_ESTIMATOR_TYPE_VISION";
  SConst "MAV_ESTIMATOR_TYPE_VIO" 3;
  SEntry "MAV_ESTIMATOR_TYPE" 3 "MAV_ESTIMATOR_TYPE_VIO";
  SConst "MAV_ESTIMATOR_TYPE_GPS" 4;
  SEntry "MAV_ESTIMATOR_TYPE" 4 "MAV_ESTIMATOR_TYPE_GPS";
  SConst "MAV_ESTIMATOR_TYPE_GPS_INS" 5;
  SEntry "MAV_ESTIMATOR_TYPE" 5 "MAV_ESTIMATOR_TYPE_GPS_INS";
  SConst "MAV_ESTIMATOR_TYPE_ENUM_END" 6;
  SEntry "MAV_ESTIMATOR_TYPE" 6 "MAV_ESTIMATOR_TYPE_ENUM_END";
  SEnum "MAV_BATTERY_TYPE";
  SConst "MAV_BATTERY_TYPE_UNKNOWN" 0;
  SEntry "MAV_BATTERY_TYPE" 0 "MAV_BATTERY_TYPE_UNKNOWN";
  SConst "MAV_BATTERY_TYPE_LIPO" 1;
  SEntry "MAV_BATTERY_TYPE" 1 "MAV_BATTERY_TYPE_LIPO";
  SConst "MAV_BATTERY_TYPE_LIFE" 2;
  SEntry "MAV_BATTERY_TYPE" 2 "MAV_BATTERY_TYPE_LIFE";
  SConst "MAV_BATTERY_TYPE_LION" 3;
  SEntry "MAV_BATTERY_TYPE" 3 "MAV_BATTERY_TYPE_LION";
  SConst "MAV_BATTERY_TYPE_NIMH" 4;
  SEntry "MAV_BATTERY_TYPE" 4 "MAV_BATTERY_TYPE_NIMH";
  SConst "MAV_BATTERY_TYPE_ENUM_END" 5;
  SEntry "MAV_BATTERY_TYPE" 5 "MAV_BATTERY_TYPE_ENUM_END";
  SEnum "MAV_BATTERY_FUNCTION";
  SConst "MAV_BATTERY_FUNCTION_UNKNOWN" 0;
  SEntry "MAV_BATTERY_FUNCTION" 0 "MAV_BATTERY_FUNCTION_UNKNOWN";
  SConst "MAV_BATTERY_FUNCTION_ALL" 1;
  SEntry "MAV_BATTERY_FUNCTION" 1 "MAV_BATTERY_FUNCTION_ALL";
  SConst "MAV_BATTERY_FUNCTION_PROPULSION" 2;
  SEntry "MAV_BATTERY_FUNCTION" 2 "MAV_BATTERY_FUNCTION_PROPULSION";
  SConst "MAV_BATTERY_FUNCTION_AVIONICS" 3;
  SEntry "MAV_BATTERY_FUNCTION" 3 "MAV_BATTERY_FUNCTION_AVIONICS";
  SConst "MAV_BATTERY_TYPE_PAYLOAD" 4;
  SEntry "MAV_BATTERY_FUNCTION" 4 "MAV_BATTERY_TYPE_PAYLOAD";
  SConst "MAV_BATTERY_FUNCTION_ENUM_END" 5;
  SEntry "MAV_BATTERY_FUNCTION" 5 "MAV_BATTERY_FUNCTION_ENUM_END";
  SEnum "MAV_VTOL_STATE";
  SConst "MAV_VTOL_STATE_UNDEFINED" 0;
  SEntry "MAV_VTOL_STATE" 0 "MAV_VTOL_STATE_UNDEFINED";
  SConst "MAV_VTOL_STATE_TRANSITION_TO_FW" 1;
  SEntry "MAV_VTOL_STATE" 1 "MAV_VTOL_STATE_TRANSITION_TO_FW";
  SConst "MAV_VTOL_STATE_TRANSITION_TO_MC" 2;
  SEntry "MAV_VTOL_STATE" 2 "MAV_VTOL_STATE_TRANSITION_TO_MC";
  SConst "MAV_VTOL_STATE_MC" 3;
  SEntry "MAV_VTOL_STATE" 3 "MAV_VTOL_STATE_MC";
  SConst "MAV_VTOL_STATE_FW" 4;
  SEntry "MAV_VTOL_STATE" 4 "MAV_VTOL_STATE_FW";
  SConst "MAV_VTOL_STATE_ENUM_END" 5;
  SEntry "MAV_VTOL_STATE" 5 "MAV_VTOL_STATE_ENUM_END";
  SEnum "MAV_LANDED_STATE";
  SConst "MAV_LANDED_STATE_UNDEFINED" 0;
  SEntry "MAV_LANDED_STATE" 0 "MAV_LANDED_STATE_UNDEFINED";
  SConst "MAV_LANDED_STATE_ON_GROUND" 1;
  SEntry "MAV_LANDED_STATE" 1 "MAV_LANDED_STATE_ON_GROUND";
  SConst "MAV_LANDED_STATE_IN_AIR" 2;
  SEntry "MAV_LANDED_STATE" 2 "MAV_LANDED_STATE_IN_AIR";
  SConst "MAV_LANDED_STATE_ENUM_END" 3;
  SEntry "MAV_LANDED_STATE" 3 "MAV_LANDED_STATE_ENUM_END";
  SEnum "ADSB_ALTITUDE_TYPE";
  SConst "ADSB_ALTITUDE_TYPE_PRESSURE_QNH" 0;
  SEntry "ADSB_ALTITUDE_TYPE" 0 "ADSB_ALTITUDE_TYPE_PRESSURE_QNH";
  SConst "ADSB_ALTITUDE_TYPE_GEOMETRIC" 1;
  SEntry "ADSB_ALTITUDE_TYPE" 1 "ADSB_ALTITUDE_TYPE_GEOMETRIC";
  SConst "ADSB_ALTITUDE_TYPE_ENUM_END" 2;
  SEntry "ADSB_ALTITUDE_TYPE" 2 "ADSB_ALTITUDE_TYPE_ENUM_END";
  SEnum "ADSB_EMITTER_TYPE";
  SConst "ADSB_EMITTER_TYPE_NO_INFO" 0;
  SEntry "ADSB_EMITTER_TYPE" 0 "ADSB_EMITTER_TYPE_NO_INFO";
  SConst "ADSB_EMITTER_TYPE_LIGHT" 1;
  SEntry "ADSB_EMITTER_TYPE" 1 "ADSB_EMITTER_TYPE_LIGHT";
  SConst "ADSB_EMITTER_TYPE_SMALL" 2;
  SEntry "ADSB_EMITTER_TYPE" 2 "ADSB_EMITTER_TYPE_SMALL";
  SConst "ADSB_EMITTER_TYPE_LARGE" 3;
  SEntry "ADSB_EMITTER_TYPE" 3 "ADSB_EMITTER_TYPE_LARGE";
  SConst "ADSB_EMITTER_TYPE_HIGH_VORTEX_LARGE" 4;
  SEntry "ADSB_EMITTER_TYPE" 4 "ADSB_EMITTER_TYPE_HIGH_VORTEX_LARGE";
  SConst "ADSB_EMITTER_TYPE_HEAVY" 5;
  SEntry "ADSB_EMITTER_TYPE" 5 "ADSB_EMITTER_TYPE_HEAVY";
  SConst "ADSB_EMITTER_TYPE_HIGHLY_MANUV" 6;
  SEntry "ADSB_EMITTER_TYPE" 6 "ADSB_EMITTER_TYPE_HIGHLY_MANUV";
  SConst "ADSB_EMITTER_TYPE_ROTOCRAFT" 7;
  SEntry "ADSB_EMITTER_TYPE" 7 "ADSB_EMITTER_TYPE_ROTOCRAFT";
  SConst "ADSB_EMITTER_TYPE_UNASSIGNED" 8;
  SEntry "ADSB_EMITTER_TYPE" 8 "ADSB_EMITTER_TYPE_UNASSIGNED";
  SConst "ADSB_EMITTER_TYPE_GLIDER" 9;
  SEntry "ADSB_EMITTER_TYPE" 9 "ADSB_EMITTER_TYPE_GLIDER";
  SConst "ADSB_EMITTER_TYPE_LIGHTER_AIR" 10;
  SEntry "ADSB_EMITTER_TYPE" 10 "ADSB_EMITTER_TYPE_LIGHTER_AIR";
  SConst "ADSB_EMITTER_TYPE_PARACHUTE" 11;
  SEntry "ADSB_EMITTER_TYPE" 11 "ADSB_EMITTER_TYPE_PARACHUTE";
  SConst "ADSB_EMITTER_TYPE_ULTRA_LIGHT" 12;
  SEntry "ADSB_EMITTER_TYPE" 12 "ADSB_EMITTER_TYPE_ULTRA_LIGHT";
  SConst "ADSB_EMITTER_TYPE_UNASSIGNED2" 13;
  SEntry "ADSB_EMITTER_TYPE" 13 "ADSB_EMITTER_TYPE_UNASSIGNED2";
  SConst "ADSB_EMITTER_TYPE_UAV" 14;
  SEntry "ADSB_EMITTER_TYPE" 14 "ADSB_EMITTER_TYPE_UAV";
  SConst "ADSB_EMITTER_TYPE_SPACE" 15;
  SEntry "ADSB_EMITTER_TYPE" 15 "ADSB_EMITTER_TYPE_SPACE";
  SConst "ADSB_EMITTER_TYPE_UNASSGINED3" 16;
  SEntry "ADSB_EMITTER_TYPE" 16 "ADSB_EMITTER_TYPE_UNASSGINED3";
  SConst "ADSB_EMITTER_TYPE_EMERGENCY_SURFACE" 17;
  SEntry "ADSB_EMITTER_TYPE" 17 "ADSB_EMITTER_TYPE_EMERGENCY_SURFACE";
  SConst "ADSB_EMITTER_TYPE_SERVICE_SURFACE" 18;
  SEntry "ADSB_EMITTER_TYPE" 18 "ADSB_EMITTER_TYPE_SERVICE_SURFACE";
  SConst "ADSB_EMITTER_TYPE_POINT_OBSTACLE" 19;
  SEntry "ADSB_EMITTER_TYPE" 19 "ADSB_EMITTER_TYPE_POINT_OBSTACLE";
  SConst "ADSB_EMITTER_TYPE_ENUM_END" 20;
  SEntry "ADSB_EMITTER_TYPE" 20 "ADSB_EMITTER_TYPE_ENUM_END";
  SEnum "ADSB_FLAGS";
  SConst "ADSB_FLAGS_VALID_COORDS" 1;
  SEntry "ADSB_FLAGS" 1 "ADSB_FLAGS_VALID_COORDS";
  SConst "ADSB_FLAGS_VALID_ALTITUDE" 2;
  SEntry "ADSB_FLAGS" 2 "ADSB_FLAGS_VALID_ALTITUDE";
  SConst "ADSB_FLAGS_VALID_HEADING" 4;
  SEntry "ADSB_FLAGS" 4 "ADSB_FLAGS_VALID_HEADING";
  SConst "ADSB_FLAGS_VALID_VELOCITY" 8;
  SEntry "ADSB_FLAGS" 8 "ADSB_FLAGS_VALID_VELOCITY";
  SConst "ADSB_FLAGS_VALID_CALLSIGN" 16;
  SEntry "ADSB_FLAGS" 16 "ADSB_FLAGS_VALID_CALLSIGN";
  SConst "ADSB_FLAGS_VALID_SQUAWK" 32;
  SEntry "ADSB_FLAGS" 32 "ADSB_FLAGS_VALID_SQUAWK";
  SConst "ADSB_FLAGS_SIMULATED" 64;
  SEntry "ADSB_FLAGS" 64 "ADSB_FLAGS_SIMULATED";
  SConst "ADSB_FLAGS_ENUM_END" 65;
  SEntry "ADSB_FLAGS" 65 "ADSB_FLAGS_ENUM_END"
].

