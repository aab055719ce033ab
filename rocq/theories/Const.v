(** Constants of /repo/screenlogicpy/const and device_const.
    Generated by tools/gen_const.py from the repository text; every block cites its lines. *)
From Verif Require Import Py.
Open Scope string_scope.
Open Scope list_scope.
Open Scope Z_scope.

(** const/data.py:1-29 class ATTR (dictionary keys) *)
Definition ATTR_BODY_TYPE : key := KS "body_type".
Definition ATTR_CIRCUIT_ID : key := KS "circuit_id".
Definition ATTR_COLOR_MODE : key := KS "color_mode".
Definition ATTR_COLOR_POSITION : key := KS "color_position".
Definition ATTR_COLOR_SET : key := KS "color_set".
Definition ATTR_COLOR_STAGGER : key := KS "color_stagger".
Definition ATTR_DEFAULT_RUNTIME : key := KS "default_runtime".
Definition ATTR_DELAY : key := KS "delay".
Definition ATTR_DEVICE_ID : key := KS "device_id".
Definition ATTR_DEVICE_TYPE : key := KS "device_type".
Definition ATTR_ENUM_OPTIONS : key := KS "enum_options".
Definition ATTR_FUNCTION : key := KS "function".
Definition ATTR_INTERFACE : key := KS "interface".
Definition ATTR_IS_RPM : key := KS "is_rpm".
Definition ATTR_LIMIT : key := KS "limit".
Definition ATTR_MAJOR : key := KS "major".
Definition ATTR_MAX_SETPOINT : key := KS "max_setpoint".
Definition ATTR_MIN_SETPOINT : key := KS "min_setpoint".
Definition ATTR_MINOR : key := KS "minor".
Definition ATTR_NAME : key := KS "name".
Definition ATTR_NAME_INDEX : key := KS "name_index".
Definition ATTR_PROGRESS : key := KS "progress".
Definition ATTR_SETPOINT : key := KS "setpoint".
Definition ATTR_STATE_TYPE : key := KS "state_type".
Definition ATTR_STEP : key := KS "step".
Definition ATTR_TEXT : key := KS "text".
Definition ATTR_UNIT : key := KS "unit".
Definition ATTR_VALUE : key := KS "value".

(** const/data.py:32-39 class DEVICE (dictionary keys) *)
Definition DEVICE_ADAPTER : key := KS "adapter".
Definition DEVICE_CONTROLLER : key := KS "controller".
Definition DEVICE_BODY : key := KS "body".
Definition DEVICE_CIRCUIT : key := KS "circuit".
Definition DEVICE_INTELLICHEM : key := KS "intellichem".
Definition DEVICE_SCG : key := KS "scg".
Definition DEVICE_PUMP : key := KS "pump".

(** const/data.py:42-52 class GROUP (dictionary keys) *)
Definition GROUP_ALARM : key := KS "alarm".
Definition GROUP_ALERT : key := KS "alert".
Definition GROUP_COLOR : key := KS "color".
Definition GROUP_COLOR_LIGHTS : key := KS "color_lights".
Definition GROUP_CONFIGURATION : key := KS "configuration".
Definition GROUP_DATE_TIME : key := KS "date_time".
Definition GROUP_DOSE_STATUS : key := KS "dose_status".
Definition GROUP_EQUIPMENT : key := KS "equipment".
Definition GROUP_SENSOR : key := KS "sensor".
Definition GROUP_WATER_BALANCE : key := KS "water_balance".

(** const/data.py:55-134 class VALUE (dictionary keys) *)
Definition VALUE_ACTIVE_ALERT : key := KS "active_alert".
Definition VALUE_AIR_TEMPERATURE : key := KS "air_temperature".
Definition VALUE_AUTO_DST : key := KS "auto_dst".
Definition VALUE_CALCIUM_HARDNESS : key := KS "calcium_hardness".
Definition VALUE_CIRCUIT_COUNT : key := KS "circuit_count".
Definition VALUE_CLEANER_DELAY : key := KS "cleaner_delay".
Definition VALUE_COLOR_COUNT : key := KS "color_count".
Definition VALUE_CONTROLLER_DATA : key := KS "controller_data".
Definition VALUE_CONTROLLER_ID : key := KS "controller_id".
Definition VALUE_CONTROLLER_STATUS : key := KS "controller_status".
Definition VALUE_CONTROLLER_TYPE : key := KS "controller_type".
Definition VALUE_COOL_SETPOINT : key := KS "cool_setpoint".
Definition VALUE_CORROSIVE : key := KS "corrosive".
Definition VALUE_CYA : key := KS "cya".
Definition VALUE_DATA : key := KS "data".
Definition VALUE_DEFAULT_CIRCUIT_NAME : key := KS "generic_circuit_name".
Definition VALUE_FIRMWARE : key := KS "firmware".
Definition VALUE_FLAGS : key := KS "flags".
Definition VALUE_FLOW_ALARM : key := KS "flow_alarm".
Definition VALUE_FREEZE_MODE : key := KS "freeze_mode".
Definition VALUE_GPM_NOW : key := KS "gpm_now".
Definition VALUE_HARDWARE_TYPE : key := KS "hardware_type".
Definition VALUE_HEAT_MODE : key := KS "heat_mode".
Definition VALUE_HEAT_SETPOINT : key := KS "heat_setpoint".
Definition VALUE_HEAT_STATE : key := KS "heat_state".
Definition VALUE_INTERFACE_TAB_FLAGS : key := KS "interface_tab_flags".
Definition VALUE_IS_CELSIUS : key := KS "is_celsius".
Definition VALUE_LAST_TEMPERATURE : key := KS "last_temperature".
Definition VALUE_LIST : key := KS "list".
Definition VALUE_MODEL : key := KS "model".
Definition VALUE_ORP : key := KS "orp".
Definition VALUE_ORP_DOSING_STATE : key := KS "orp_dosing_state".
Definition VALUE_ORP_HIGH_ALARM : key := KS "orp_high_alarm".
Definition VALUE_ORP_LAST_DOSE_TIME : key := KS "orp_last_dose_time".
Definition VALUE_ORP_LAST_DOSE_VOLUME : key := KS "orp_last_dose_volume".
Definition VALUE_ORP_LIMIT : key := KS "orp_limit".
Definition VALUE_ORP_LOW_ALARM : key := KS "orp_low_alarm".
Definition VALUE_ORP_NOW : key := KS "orp_now".
Definition VALUE_ORP_SETPOINT : key := KS "orp_setpoint".
Definition VALUE_ORP_SUPPLY_ALARM : key := KS "orp_supply_alarm".
Definition VALUE_ORP_SUPPLY_LEVEL : key := KS "orp_supply_level".
Definition VALUE_PH : key := KS "ph".
Definition VALUE_PH_DOSING_STATE : key := KS "ph_dosing_state".
Definition VALUE_PH_HIGH_ALARM : key := KS "ph_high_alarm".
Definition VALUE_PH_LAST_DOSE_TIME : key := KS "ph_last_dose_time".
Definition VALUE_PH_LAST_DOSE_VOLUME : key := KS "ph_last_dose_volume".
Definition VALUE_PH_LIMIT : key := KS "ph_limit".
Definition VALUE_PH_LOCKOUT : key := KS "ph_lockout".
Definition VALUE_PH_LOW_ALARM : key := KS "ph_low_alarm".
Definition VALUE_PH_NOW : key := KS "ph_now".
Definition VALUE_PH_PROBE_WATER_TEMP : key := KS "ph_probe_water_temp".
Definition VALUE_PH_SETPOINT : key := KS "ph_setpoint".
Definition VALUE_PH_SUPPLY_ALARM : key := KS "ph_supply_alarm".
Definition VALUE_PH_SUPPLY_LEVEL : key := KS "ph_supply_level".
Definition VALUE_POOL_DELAY : key := KS "pool_delay".
Definition VALUE_POOL_SETPOINT : key := KS "pool_setpoint".
Definition VALUE_PRESET : key := KS "preset".
Definition VALUE_PROBE_FAULT_ALARM : key := KS "probe_fault_alarm".
Definition VALUE_PROBE_IS_CELSIUS : key := KS "probe_is_celsius".
Definition VALUE_PROGRESS_LIMIT : key := KS "progress_limit".
Definition VALUE_PROGRESS_NOW : key := KS "progress_now".
Definition VALUE_REMOTES : key := KS "remotes".
Definition VALUE_RPM_NOW : key := KS "rpm_now".
Definition VALUE_SALT_PPM : key := KS "salt_ppm".
Definition VALUE_SALT_TDS_PPM : key := KS "salt_tds_ppm".
Definition VALUE_SATURATION : key := KS "saturation".
Definition VALUE_SCALING : key := KS "scaling".
Definition VALUE_SCG_PRESENT : key := KS "scg_present".
Definition VALUE_SHOW_ALARMS : key := KS "show_alarms".
Definition VALUE_SPA_DELAY : key := KS "spa_delay".
Definition VALUE_SPA_SETPOINT : key := KS "spa_setpoint".
Definition VALUE_STATE : key := KS "state".
Definition VALUE_SUPER_CHLOR_TIMER : key := KS "super_chlor_timer".
Definition VALUE_SUPER_CHLORINATE : key := KS "super_chlorinate".
Definition VALUE_TIMESTAMP : key := KS "timestamp".
Definition VALUE_TIMESTAMP_HOST : key := KS "timestamp_host".
Definition VALUE_TOTAL_ALKALINITY : key := KS "total_alkalinity".
Definition VALUE_TYPE : key := KS "type".
Definition VALUE_WATTS_NOW : key := KS "watts_now".

(** const/common.py:140-147 class DEVICE_TYPE (string values) *)
Definition DEVICE_TYPE_ALARM : pystr := u "alarm".
Definition DEVICE_TYPE_DURATION : pystr := u "duration".
Definition DEVICE_TYPE_ENERGY : pystr := u "energy".
Definition DEVICE_TYPE_ENUM : pystr := u "enum".
Definition DEVICE_TYPE_POWER : pystr := u "power".
Definition DEVICE_TYPE_TEMPERATURE : pystr := u "temperature".
Definition DEVICE_TYPE_VOLUME : pystr := u "volume".

(** const/common.py:150-153 class STATE_TYPE (string values) *)
Definition STATE_TYPE_MEASUREMENT : pystr := u "measurement".
Definition STATE_TYPE_TOTAL : pystr := u "total".
Definition STATE_TYPE_TOTAL_INCREASING : pystr := u "total_increasing".

(** const/common.py:156-182 class UNIT (string values) *)
Definition UNIT_PARTS_PER_MILLION : pystr := u "ppm".
Definition UNIT_PERCENT : pystr := u "%".
Definition UNIT_PH : pystr := u "pH".
Definition UNIT_SATURATION_INDEX : pystr := u "lsi".
Definition UNIT_MILLIVOLT : pystr := u "mV".
Definition UNIT_WATT : pystr := u "W".
Definition UNIT_GALLONS_PER_MINUTE : pystr := u "gpm".
Definition UNIT_REVOLUTIONS_PER_MINUTE : pystr := u "rpm".
Definition UNIT_CELSIUS : pystr := [176; 67].
Definition UNIT_FAHRENHEIT : pystr := [176; 70].
Definition UNIT_HOUR : pystr := u "hr".
Definition UNIT_SECOND : pystr := u "sec".
Definition UNIT_MILLILITER : pystr := u "mL".

(** const/msg.py:12-44 class CODE *)
Definition CODE_MSG_CODE_1 : Z := 0.
Definition CODE_ERROR_LOGIN_REJECTED : Z := 13.
Definition CODE_CHALLENGE_QUERY : Z := 14.
Definition CODE_PING_QUERY : Z := 16.
Definition CODE_LOCALLOGIN_QUERY : Z := 27.
Definition CODE_ERROR_INVALID_REQUEST : Z := 30.
Definition CODE_ERROR_BAD_PARAMETER : Z := 31.
Definition CODE_FIRMWARE_QUERY : Z := 8058.
Definition CODE_GET_DATETIME_QUERY : Z := 8110.
Definition CODE_SET_DATETIME_QUERY : Z := 8112.
Definition CODE_VERSION_QUERY : Z := 8120.
Definition CODE_WEATHER_FORECAST_CHANGED : Z := 9806.
Definition CODE_WEATHER_FORECAST_QUERY : Z := 9807.
Definition CODE_STATUS_CHANGED : Z := 12500.
Definition CODE_COLOR_UPDATE : Z := 12504.
Definition CODE_CHEMISTRY_CHANGED : Z := 12505.
Definition CODE_ADD_CLIENT_QUERY : Z := 12522.
Definition CODE_REMOVE_CLIENT_QUERY : Z := 12524.
Definition CODE_POOLSTATUS_QUERY : Z := 12526.
Definition CODE_SETHEATTEMP_QUERY : Z := 12528.
Definition CODE_BUTTONPRESS_QUERY : Z := 12530.
Definition CODE_CTRLCONFIG_QUERY : Z := 12532.
Definition CODE_SETHEATMODE_QUERY : Z := 12538.
Definition CODE_LIGHTCOMMAND_QUERY : Z := 12556.
Definition CODE_SETCHEMDATA_QUERY : Z := 12594.
Definition CODE_EQUIPMENT_QUERY : Z := 12566.
Definition CODE_SCGCONFIG_QUERY : Z := 12572.
Definition CODE_SETSCG_QUERY : Z := 12576.
Definition CODE_PUMPSTATUS_QUERY : Z := 12584.
Definition CODE_SETCOOLTEMP_QUERY : Z := 12590.
Definition CODE_CHEMISTRY_QUERY : Z := 12592.
Definition CODE_GATEWAYDATA_QUERY : Z := 18003.

(** const/common.py:185-191 enum ON_OFF: (member name, value) in definition order *)
Definition ON_OFF : list (string * Z) :=
  [("OFF", 0);
   ("ON", 1)].
Definition ON_OFF_OFF : Z := 0.
Definition ON_OFF_ON : Z := 1.

(** device_const/system.py:5-7 enum BODY_TYPE: (member name, value) in definition order *)
Definition BODY_TYPE : list (string * Z) :=
  [("POOL", 0);
   ("SPA", 1)].
Definition BODY_TYPE_POOL : Z := 0.
Definition BODY_TYPE_SPA : Z := 1.

(** device_const/system.py:45-49 enum CONTROLLER_STATE: (member name, value) in definition order *)
Definition CONTROLLER_STATE : list (string * Z) :=
  [("UNKNOWN", 0);
   ("READY", 1);
   ("SYNC", 2);
   ("SERVICE", 3)].
Definition CONTROLLER_STATE_UNKNOWN : Z := 0.
Definition CONTROLLER_STATE_READY : Z := 1.
Definition CONTROLLER_STATE_SYNC : Z := 2.
Definition CONTROLLER_STATE_SERVICE : Z := 3.

(** device_const/system.py:56-75 enum EQUIPMENT_FLAG: (member name, value) in definition order *)
Definition EQUIPMENT_FLAG : list (string * Z) :=
  [("SOLAR", 1);
   ("SOLAR_AS_HEAT_PUMP", 2);
   ("CHLORINATOR", 4);
   ("INTELLIBRITE", 8);
   ("INTELLIFLO_0", 16);
   ("INTELLIFLO_1", 32);
   ("INTELLIFLO_2", 64);
   ("INTELLIFLO_3", 128);
   ("INTELLIFLO_4", 256);
   ("INTELLIFLO_5", 512);
   ("INTELLIFLO_6", 1024);
   ("INTELLIFLO_7", 2048);
   ("NO_SPECIAL_LIGHTS", 4096);
   ("HAS_COOLING", 8192);
   ("MAGIC_STREAM", 16384);
   ("INTELLICHEM", 32768);
   ("HYBRID_HEATER", 65536)].
Definition EQUIPMENT_FLAG_SOLAR : Z := 1.
Definition EQUIPMENT_FLAG_SOLAR_AS_HEAT_PUMP : Z := 2.
Definition EQUIPMENT_FLAG_CHLORINATOR : Z := 4.
Definition EQUIPMENT_FLAG_INTELLIBRITE : Z := 8.
Definition EQUIPMENT_FLAG_INTELLIFLO_0 : Z := 16.
Definition EQUIPMENT_FLAG_INTELLIFLO_1 : Z := 32.
Definition EQUIPMENT_FLAG_INTELLIFLO_2 : Z := 64.
Definition EQUIPMENT_FLAG_INTELLIFLO_3 : Z := 128.
Definition EQUIPMENT_FLAG_INTELLIFLO_4 : Z := 256.
Definition EQUIPMENT_FLAG_INTELLIFLO_5 : Z := 512.
Definition EQUIPMENT_FLAG_INTELLIFLO_6 : Z := 1024.
Definition EQUIPMENT_FLAG_INTELLIFLO_7 : Z := 2048.
Definition EQUIPMENT_FLAG_NO_SPECIAL_LIGHTS : Z := 4096.
Definition EQUIPMENT_FLAG_HAS_COOLING : Z := 8192.
Definition EQUIPMENT_FLAG_MAGIC_STREAM : Z := 16384.
Definition EQUIPMENT_FLAG_INTELLICHEM : Z := 32768.
Definition EQUIPMENT_FLAG_HYBRID_HEATER : Z := 65536.

(** device_const/system.py:78-100 enum COLOR_MODE: (member name, value) in definition order *)
Definition COLOR_MODE : list (string * Z) :=
  [("ALL_OFF", 0);
   ("ALL_ON", 1);
   ("COLOR_SET", 2);
   ("COLOR_SYNC", 3);
   ("COLOR_SWIM", 4);
   ("PARTY", 5);
   ("ROMANCE", 6);
   ("CARIBBEAN", 7);
   ("AMERICAN", 8);
   ("SUNSET", 9);
   ("ROYAL", 10);
   ("SAVE", 11);
   ("RECALL", 12);
   ("BLUE", 13);
   ("GREEN", 14);
   ("RED", 15);
   ("WHITE", 16);
   ("MAGENTA", 17);
   ("THUMPER", 18);
   ("NEXT_MODE", 19);
   ("RESET", 20);
   ("HOLD", 21)].
Definition COLOR_MODE_ALL_OFF : Z := 0.
Definition COLOR_MODE_ALL_ON : Z := 1.
Definition COLOR_MODE_COLOR_SET : Z := 2.
Definition COLOR_MODE_COLOR_SYNC : Z := 3.
Definition COLOR_MODE_COLOR_SWIM : Z := 4.
Definition COLOR_MODE_PARTY : Z := 5.
Definition COLOR_MODE_ROMANCE : Z := 6.
Definition COLOR_MODE_CARIBBEAN : Z := 7.
Definition COLOR_MODE_AMERICAN : Z := 8.
Definition COLOR_MODE_SUNSET : Z := 9.
Definition COLOR_MODE_ROYAL : Z := 10.
Definition COLOR_MODE_SAVE : Z := 11.
Definition COLOR_MODE_RECALL : Z := 12.
Definition COLOR_MODE_BLUE : Z := 13.
Definition COLOR_MODE_GREEN : Z := 14.
Definition COLOR_MODE_RED : Z := 15.
Definition COLOR_MODE_WHITE : Z := 16.
Definition COLOR_MODE_MAGENTA : Z := 17.
Definition COLOR_MODE_THUMPER : Z := 18.
Definition COLOR_MODE_NEXT_MODE : Z := 19.
Definition COLOR_MODE_RESET : Z := 20.
Definition COLOR_MODE_HOLD : Z := 21.

(** device_const/circuit.py:4-24 enum FUNCTION: (member name, value) in definition order *)
Definition FUNCTION : list (string * Z) :=
  [("GENERIC", 0);
   ("SPA", 1);
   ("POOL", 2);
   ("SECOND_SPA", 3);
   ("SECOND_POOL", 4);
   ("MASTER_CLEANER", 5);
   ("CLEANER", 6);
   ("LIGHT", 7);
   ("DIMMER", 8);
   ("SAM_LIGHT", 9);
   ("SAL_LIGHT", 10);
   ("PHOTONGEN", 11);
   ("COLOR_WHEEL", 12);
   ("VALVE", 13);
   ("SPILLWAY", 14);
   ("FLOOR_CLEANER", 15);
   ("INTELLIBRITE", 16);
   ("MAGICSTREAM", 17);
   ("DIMMER_25", 18)].
Definition FUNCTION_GENERIC : Z := 0.
Definition FUNCTION_SPA : Z := 1.
Definition FUNCTION_POOL : Z := 2.
Definition FUNCTION_SECOND_SPA : Z := 3.
Definition FUNCTION_SECOND_POOL : Z := 4.
Definition FUNCTION_MASTER_CLEANER : Z := 5.
Definition FUNCTION_CLEANER : Z := 6.
Definition FUNCTION_LIGHT : Z := 7.
Definition FUNCTION_DIMMER : Z := 8.
Definition FUNCTION_SAM_LIGHT : Z := 9.
Definition FUNCTION_SAL_LIGHT : Z := 10.
Definition FUNCTION_PHOTONGEN : Z := 11.
Definition FUNCTION_COLOR_WHEEL : Z := 12.
Definition FUNCTION_VALVE : Z := 13.
Definition FUNCTION_SPILLWAY : Z := 14.
Definition FUNCTION_FLOOR_CLEANER : Z := 15.
Definition FUNCTION_INTELLIBRITE : Z := 16.
Definition FUNCTION_MAGICSTREAM : Z := 17.
Definition FUNCTION_DIMMER_25 : Z := 18.

(** device_const/circuit.py:27-34 enum INTERFACE: (member name, value) in definition order *)
Definition INTERFACE : list (string * Z) :=
  [("POOL", 0);
   ("SPA", 1);
   ("FEATURES", 2);
   ("SYNC_SWIM", 3);
   ("LIGHTS", 4);
   ("DONT_SHOW", 5);
   ("INVALID", 6)].
Definition INTERFACE_POOL : Z := 0.
Definition INTERFACE_SPA : Z := 1.
Definition INTERFACE_FEATURES : Z := 2.
Definition INTERFACE_SYNC_SWIM : Z := 3.
Definition INTERFACE_LIGHTS : Z := 4.
Definition INTERFACE_DONT_SHOW : Z := 5.
Definition INTERFACE_INVALID : Z := 6.

(** device_const/heat.py:4-13 enum HEAT_MODE: (member name, value) in definition order *)
Definition HEAT_MODE : list (string * Z) :=
  [("OFF", 0);
   ("SOLAR", 1);
   ("SOLAR_PREFERRED", 2);
   ("HEATER", 3);
   ("DONT_CHANGE", 4)].
Definition HEAT_MODE_OFF : Z := 0.
Definition HEAT_MODE_SOLAR : Z := 1.
Definition HEAT_MODE_SOLAR_PREFERRED : Z := 2.
Definition HEAT_MODE_HEATER : Z := 3.
Definition HEAT_MODE_DONT_CHANGE : Z := 4.

(** device_const/heat.py:16-20 enum HEAT_STATE: (member name, value) in definition order *)
Definition HEAT_STATE : list (string * Z) :=
  [("OFF", 0);
   ("SOLAR", 1);
   ("HEATER", 2);
   ("BOTH", 3)].
Definition HEAT_STATE_OFF : Z := 0.
Definition HEAT_STATE_SOLAR : Z := 1.
Definition HEAT_STATE_HEATER : Z := 2.
Definition HEAT_STATE_BOTH : Z := 3.

(** device_const/pump.py:4-12 enum PUMP_TYPE: (member name, value) in definition order *)
Definition PUMP_TYPE : list (string * Z) :=
  [("NONE", 0);
   ("INTELLIFLO_VF", 1);
   ("INTELLIFLO_VS", 2);
   ("INTELLIFLO_VSF", 3)].
Definition PUMP_TYPE_NONE : Z := 0.
Definition PUMP_TYPE_INTELLIFLO_VF : Z := 1.
Definition PUMP_TYPE_INTELLIFLO_VS : Z := 2.
Definition PUMP_TYPE_INTELLIFLO_VSF : Z := 3.

(** device_const/scg.py:5-15 enum STATUS_FLAG: (member name, value) in definition order *)
Definition STATUS_FLAG : list (string * Z) :=
  [("SCG_ACTIVE", 1);
   ("SALT_VERY_LOW", 16);
   ("SALT_LOW", 32);
   ("SALT_OK", 64);
   ("SALT_HIGH", 128);
   ("ICHEM_IN_CONTROL", 32768)].
Definition STATUS_FLAG_SCG_ACTIVE : Z := 1.
Definition STATUS_FLAG_SALT_VERY_LOW : Z := 16.
Definition STATUS_FLAG_SALT_LOW : Z := 32.
Definition STATUS_FLAG_SALT_OK : Z := 64.
Definition STATUS_FLAG_SALT_HIGH : Z := 128.
Definition STATUS_FLAG_ICHEM_IN_CONTROL : Z := 32768.

(** device_const/scg.py:18-19 enum STATE_FLAG: (member name, value) in definition order *)
Definition STATE_FLAG : list (string * Z) :=
  [("SUPER_CHLORINATE", 1)].
Definition STATE_FLAG_SUPER_CHLORINATE : Z := 1.

(** device_const/chemistry.py:6-14 enum ALARM_FLAG: (member name, value) in definition order *)
Definition ALARM_FLAG : list (string * Z) :=
  [("FLOW", 1);
   ("PH_HIGH", 2);
   ("PH_LOW", 4);
   ("ORP_HIGH", 8);
   ("ORP_LOW", 16);
   ("PH_SUPPLY", 32);
   ("ORP_SUPPLY", 64);
   ("PROBE_FAULT", 128)].
Definition ALARM_FLAG_FLOW : Z := 1.
Definition ALARM_FLAG_PH_HIGH : Z := 2.
Definition ALARM_FLAG_PH_LOW : Z := 4.
Definition ALARM_FLAG_ORP_HIGH : Z := 8.
Definition ALARM_FLAG_ORP_LOW : Z := 16.
Definition ALARM_FLAG_PH_SUPPLY : Z := 32.
Definition ALARM_FLAG_ORP_SUPPLY : Z := 64.
Definition ALARM_FLAG_PROBE_FAULT : Z := 128.

(** device_const/chemistry.py:17-22 enum ALERT_FLAG: (member name, value) in definition order *)
Definition ALERT_FLAG : list (string * Z) :=
  [("PH_LOCKOUT", 1);
   ("PH_LIMIT", 2);
   ("ORP_LIMIT", 4);
   ("INVALID_SETUP", 8);
   ("CHLORINATOR_COMM_ERROR", 16)].
Definition ALERT_FLAG_PH_LOCKOUT : Z := 1.
Definition ALERT_FLAG_PH_LIMIT : Z := 2.
Definition ALERT_FLAG_ORP_LIMIT : Z := 4.
Definition ALERT_FLAG_INVALID_SETUP : Z := 8.
Definition ALERT_FLAG_CHLORINATOR_COMM_ERROR : Z := 16.

(** device_const/chemistry.py:41-43 enum BALANCE_FLAG: (member name, value) in definition order *)
Definition BALANCE_FLAG : list (string * Z) :=
  [("CORROSIVE", 1);
   ("SCALING", 2)].
Definition BALANCE_FLAG_CORROSIVE : Z := 1.
Definition BALANCE_FLAG_SCALING : Z := 2.

(** device_const/chemistry.py:46-53 enum CONFIG_FLAG: (member name, value) in definition order *)
Definition CONFIG_FLAG : list (string * Z) :=
  [("FLOW_DELAY", 2);
   ("INTELLICHLOR", 4);
   ("PH_PRIORITY", 8);
   ("USE_CHLORINATOR", 16);
   ("ADVANCED_DISPLAY", 32);
   ("PH_SUPPLY_TYPE", 64);
   ("COMMS_LOST", 128)].
Definition CONFIG_FLAG_FLOW_DELAY : Z := 2.
Definition CONFIG_FLAG_INTELLICHLOR : Z := 4.
Definition CONFIG_FLAG_PH_PRIORITY : Z := 8.
Definition CONFIG_FLAG_USE_CHLORINATOR : Z := 16.
Definition CONFIG_FLAG_ADVANCED_DISPLAY : Z := 32.
Definition CONFIG_FLAG_PH_SUPPLY_TYPE : Z := 64.
Definition CONFIG_FLAG_COMMS_LOST : Z := 128.

(** device_const/chemistry.py:56-60 enum DOSE_MASK: (member name, value) in definition order *)
Definition DOSE_MASK : list (string * Z) :=
  [("ORP_TYPE", 3);
   ("PH_TYPE", 12);
   ("PH_STATE", 48);
   ("ORP_STATE", 192)].
Definition DOSE_MASK_ORP_TYPE : Z := 3.
Definition DOSE_MASK_PH_TYPE : Z := 12.
Definition DOSE_MASK_PH_STATE : Z := 48.
Definition DOSE_MASK_ORP_STATE : Z := 192.

(** device_const/chemistry.py:63-66 enum DOSE_STATE: (member name, value) in definition order *)
Definition DOSE_STATE : list (string * Z) :=
  [("DOSING", 0);
   ("MIXING", 1);
   ("MONITORING", 2)].
Definition DOSE_STATE_DOSING : Z := 0.
Definition DOSE_STATE_MIXING : Z := 1.
Definition DOSE_STATE_MONITORING : Z := 2.

(** device_const/chemistry.py:69-72 enum DOSE_TYPE_ORP: (member name, value) in definition order *)
Definition DOSE_TYPE_ORP : list (string * Z) :=
  [("NONE", 0);
   ("CHLORINE", 1);
   ("SCG", 2)].
Definition DOSE_TYPE_ORP_NONE : Z := 0.
Definition DOSE_TYPE_ORP_CHLORINE : Z := 1.
Definition DOSE_TYPE_ORP_SCG : Z := 2.

(** device_const/chemistry.py:75-78 enum DOSE_TYPE_PH: (member name, value) in definition order *)
Definition DOSE_TYPE_PH : list (string * Z) :=
  [("NONE", 0);
   ("ACID", 1);
   ("CO2", 2)].
Definition DOSE_TYPE_PH_NONE : Z := 0.
Definition DOSE_TYPE_PH_ACID : Z := 1.
Definition DOSE_TYPE_PH_CO2 : Z := 2.

(** device_const/chemistry.py:25-38 class BALANCE (string values) *)
Definition BALANCE_IDEAL : pystr := u "Ideal".
Definition BALANCE_NORMAL : pystr := u "Normal".
Definition BALANCE_SCALING : pystr := u "Scaling".
Definition BALANCE_CORROSIVE : pystr := u "Corrosive".

(** device_const/system.py:11-35 CONTROLLER_HARDWARE_MAP *)
Definition CONTROLLER_HARDWARE_MAP : list (Z * list (Z * string)) :=
  [(0, [(0, "IntelliTouch i5+3S")]);
   (1, [(0, "IntelliTouch i7+3")]);
   (2, [(0, "IntelliTouch i9+3")]);
   (3, [(0, "IntelliTouch i5+3S")]);
   (4, [(0, "IntelliTouch i9+3S")]);
   (5, [(0, "IntelliTouch i10+3D"); (1, "IntelliTouch i10X")]);
   (6, [(0, "IntelliTouch i10X")]);
   (10, [(0, "SunTouch")]);
   (11, [(0, "Suntouch/Intellicom")]);
   (13, [(0, "EasyTouch2 8"); (1, "EasyTouch2 8P"); (2, "EasyTouch2 4"); (3, "EasyTouch2 4P"); (5, "EasyTouch2 PL4"); (6, "EasyTouch2 PSL4")]);
   (14, [(0, "EasyTouch1 8"); (1, "EasyTouch1 8P"); (2, "EasyTouch1 4"); (3, "EasyTouch1 4P")])].
(** device_const/system.py:53 *)
Definition EQUIPMENT_MASK_736 : Z := 65535.
(** const/common.py:6 *)
Definition CLIENT_ID : Z := 49151.
(** const/common.py:11 *)
Definition COM_KEEPALIVE : Z := 300.
(** const/common.py:13 *)
Definition SL_GATEWAY_IP : key := KS "ip".
(** const/common.py:14 *)
Definition SL_GATEWAY_PORT : key := KS "port".
(** const/common.py:15 *)
Definition SL_GATEWAY_TYPE : key := KS "gtype".
(** const/common.py:16 *)
Definition SL_GATEWAY_SUBTYPE : key := KS "gsubtype".
(** const/common.py:17 *)
Definition SL_GATEWAY_NAME : key := KS "name".
(** const/data.py:141-151 *)
Definition SHARED_VALUES : list key := [VALUE_DATA; VALUE_FIRMWARE; VALUE_FLAGS; VALUE_GPM_NOW; VALUE_RPM_NOW; VALUE_SALT_PPM; VALUE_STATE; VALUE_TYPE; VALUE_WATTS_NOW].

(** const/data.py:137-138 UNKNOWN(offset): f"unknown_at_offset_{offset:02}" *)
Definition UNKNOWN (offset : Z) : key :=
  KS ("unknown_at_offset_" ++ zpad 2 (string_of_Z offset))%string.
