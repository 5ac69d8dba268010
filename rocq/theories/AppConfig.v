(** Model of src/app_config.rs.
    Enumerated fields hold the numeric value of the Rust enum; the conversion
    [TryFrom<u8>] is the membership test in the list of values declared in
    uci_packets.pdl. *)
From Verif Require Import Base Uci MacAddress.

(** app_config.rs:7-12 [enum SubSessionKey]. *)
Inductive sub_session_key : Set :=
  | SubKeyNone
  | SubKeyShort (k : bytes)      (* [u8; 16] *)
  | SubKeyExtended (k : bytes).  (* [u8; 32] *)

(** app_config.rs:23-92 [struct AppConfig]. *)
Record app_config : Set := AppConfig {
  device_type : option N;
  ranging_round_usage : option N;
  sts_config : N;
  multi_node_mode : option N;
  channel_number : N;
  number_of_controlees : N;
  device_mac_address : option mac_address;
  dst_mac_address : list mac_address;
  slot_duration : N;
  ranging_duration : N;
  sts_index : N;
  mac_fcs_type : N;
  ranging_round_control : N;
  aoa_result_req : N;
  session_info_ntf_config : N;
  near_proximity_config : N;
  far_proximity_config : N;
  device_role : option N;
  rframe_config : N;
  rssi_reporting : N;
  preamble_code_index : N;
  sfd_id : N;
  psdu_data_rate : N;
  preamble_duration : N;
  link_layer_mode : N;
  data_repetition_count : N;
  ranging_time_struct : N;
  slots_per_rr : N;
  aoa_bound_config : list N;
  prf_mode : N;
  cap_size_range : bytes;
  tx_jitter_window_size : N;
  schedule_mode : option N;
  key_rotation : N;
  key_rotation_rate : N;
  session_priority : N;
  mac_address_mode : N;
  vendor_id : N;
  static_sts_iv : bytes;
  number_of_sts_segments : N;
  max_rr_retry : N;
  uwb_initiation_time : N;
  hopping_mode : N;
  block_stride_length : N;
  result_report_config : N;
  in_band_termination_attempt_count : N;
  sub_session_id : N;
  bprf_phr_data_rate : N;
  max_number_of_measurements : N;
  sts_length : N;
  min_frames_per_rr : N;
  mtu_size : N;
  inter_frame_interval : N;
  session_key : bytes;
  sub_session_key_ : sub_session_key;
  session_data_transfer_status_ntf_config : N;
  session_time_base : bytes;
  application_data_endpoint : N
}.

(** app_config.rs:94-161 [impl Default for AppConfig]. *)
Definition default_app_config : app_config := {|
  device_type := None;
  ranging_round_usage := None;
  sts_config := 0;
  multi_node_mode := None;
  channel_number := 9;
  number_of_controlees := 1;
  device_mac_address := None;
  dst_mac_address := [];
  slot_duration := 2400;
  ranging_duration := 200;
  sts_index := 0;
  mac_fcs_type := 0;
  ranging_round_control := 6;
  aoa_result_req := 1;
  session_info_ntf_config := 1;
  near_proximity_config := 0;
  far_proximity_config := 20000;
  device_role := None;
  rframe_config := 3;
  rssi_reporting := 0;
  preamble_code_index := 10;
  sfd_id := 2;
  psdu_data_rate := 0;
  preamble_duration := 1;
  link_layer_mode := 0;
  data_repetition_count := 0;
  ranging_time_struct := 1;
  slots_per_rr := 25;
  aoa_bound_config := [0; 0; 0; 0];
  prf_mode := 0;
  cap_size_range := [24; 5];
  tx_jitter_window_size := 0;
  schedule_mode := None;
  key_rotation := 0;
  key_rotation_rate := 0;
  session_priority := 50;
  mac_address_mode := 0;
  vendor_id := 0;
  static_sts_iv := [0; 0; 0; 0; 0; 0];
  number_of_sts_segments := 1;
  max_rr_retry := 0;
  uwb_initiation_time := 0;
  hopping_mode := 0;
  block_stride_length := 0;
  result_report_config := 1;
  in_band_termination_attempt_count := 1;
  sub_session_id := 0;
  bprf_phr_data_rate := 0;
  max_number_of_measurements := 0;
  sts_length := 1;
  min_frames_per_rr := 4;
  mtu_size := 0;
  inter_frame_interval := 1;
  session_key := [];
  sub_session_key_ := SubKeyNone;
  session_data_transfer_status_ntf_config := 0;
  session_time_base := [0; 0; 0; 0; 0; 0; 0; 0; 0];
  application_data_endpoint := 0
|}.

(** Assignments [self.field = v] (Rust field update). *)
Definition set_device_type (v : option N) (c : app_config) : app_config := {|
  device_type := v; ranging_round_usage := ranging_round_usage c; sts_config := sts_config c; multi_node_mode := multi_node_mode c; channel_number := channel_number c; number_of_controlees := number_of_controlees c; device_mac_address := device_mac_address c; dst_mac_address := dst_mac_address c; slot_duration := slot_duration c; ranging_duration := ranging_duration c; sts_index := sts_index c; mac_fcs_type := mac_fcs_type c; ranging_round_control := ranging_round_control c; aoa_result_req := aoa_result_req c; session_info_ntf_config := session_info_ntf_config c; near_proximity_config := near_proximity_config c; far_proximity_config := far_proximity_config c; device_role := device_role c; rframe_config := rframe_config c; rssi_reporting := rssi_reporting c; preamble_code_index := preamble_code_index c; sfd_id := sfd_id c; psdu_data_rate := psdu_data_rate c; preamble_duration := preamble_duration c; link_layer_mode := link_layer_mode c; data_repetition_count := data_repetition_count c; ranging_time_struct := ranging_time_struct c; slots_per_rr := slots_per_rr c; aoa_bound_config := aoa_bound_config c; prf_mode := prf_mode c; cap_size_range := cap_size_range c; tx_jitter_window_size := tx_jitter_window_size c; schedule_mode := schedule_mode c; key_rotation := key_rotation c; key_rotation_rate := key_rotation_rate c; session_priority := session_priority c; mac_address_mode := mac_address_mode c; vendor_id := vendor_id c; static_sts_iv := static_sts_iv c; number_of_sts_segments := number_of_sts_segments c; max_rr_retry := max_rr_retry c; uwb_initiation_time := uwb_initiation_time c; hopping_mode := hopping_mode c; block_stride_length := block_stride_length c; result_report_config := result_report_config c; in_band_termination_attempt_count := in_band_termination_attempt_count c; sub_session_id := sub_session_id c; bprf_phr_data_rate := bprf_phr_data_rate c; max_number_of_measurements := max_number_of_measurements c; sts_length := sts_length c; min_frames_per_rr := min_frames_per_rr c; mtu_size := mtu_size c; inter_frame_interval := inter_frame_interval c; session_key := session_key c; sub_session_key_ := sub_session_key_ c; session_data_transfer_status_ntf_config := session_data_transfer_status_ntf_config c; session_time_base := session_time_base c; application_data_endpoint := application_data_endpoint c |}.
Definition set_ranging_round_usage (v : option N) (c : app_config) : app_config := {|
  device_type := device_type c; ranging_round_usage := v; sts_config := sts_config c; multi_node_mode := multi_node_mode c; channel_number := channel_number c; number_of_controlees := number_of_controlees c; device_mac_address := device_mac_address c; dst_mac_address := dst_mac_address c; slot_duration := slot_duration c; ranging_duration := ranging_duration c; sts_index := sts_index c; mac_fcs_type := mac_fcs_type c; ranging_round_control := ranging_round_control c; aoa_result_req := aoa_result_req c; session_info_ntf_config := session_info_ntf_config c; near_proximity_config := near_proximity_config c; far_proximity_config := far_proximity_config c; device_role := device_role c; rframe_config := rframe_config c; rssi_reporting := rssi_reporting c; preamble_code_index := preamble_code_index c; sfd_id := sfd_id c; psdu_data_rate := psdu_data_rate c; preamble_duration := preamble_duration c; link_layer_mode := link_layer_mode c; data_repetition_count := data_repetition_count c; ranging_time_struct := ranging_time_struct c; slots_per_rr := slots_per_rr c; aoa_bound_config := aoa_bound_config c; prf_mode := prf_mode c; cap_size_range := cap_size_range c; tx_jitter_window_size := tx_jitter_window_size c; schedule_mode := schedule_mode c; key_rotation := key_rotation c; key_rotation_rate := key_rotation_rate c; session_priority := session_priority c; mac_address_mode := mac_address_mode c; vendor_id := vendor_id c; static_sts_iv := static_sts_iv c; number_of_sts_segments := number_of_sts_segments c; max_rr_retry := max_rr_retry c; uwb_initiation_time := uwb_initiation_time c; hopping_mode := hopping_mode c; block_stride_length := block_stride_length c; result_report_config := result_report_config c; in_band_termination_attempt_count := in_band_termination_attempt_count c; sub_session_id := sub_session_id c; bprf_phr_data_rate := bprf_phr_data_rate c; max_number_of_measurements := max_number_of_measurements c; sts_length := sts_length c; min_frames_per_rr := min_frames_per_rr c; mtu_size := mtu_size c; inter_frame_interval := inter_frame_interval c; session_key := session_key c; sub_session_key_ := sub_session_key_ c; session_data_transfer_status_ntf_config := session_data_transfer_status_ntf_config c; session_time_base := session_time_base c; application_data_endpoint := application_data_endpoint c |}.
Definition set_sts_config (v : N) (c : app_config) : app_config := {|
  device_type := device_type c; ranging_round_usage := ranging_round_usage c; sts_config := v; multi_node_mode := multi_node_mode c; channel_number := channel_number c; number_of_controlees := number_of_controlees c; device_mac_address := device_mac_address c; dst_mac_address := dst_mac_address c; slot_duration := slot_duration c; ranging_duration := ranging_duration c; sts_index := sts_index c; mac_fcs_type := mac_fcs_type c; ranging_round_control := ranging_round_control c; aoa_result_req := aoa_result_req c; session_info_ntf_config := session_info_ntf_config c; near_proximity_config := near_proximity_config c; far_proximity_config := far_proximity_config c; device_role := device_role c; rframe_config := rframe_config c; rssi_reporting := rssi_reporting c; preamble_code_index := preamble_code_index c; sfd_id := sfd_id c; psdu_data_rate := psdu_data_rate c; preamble_duration := preamble_duration c; link_layer_mode := link_layer_mode c; data_repetition_count := data_repetition_count c; ranging_time_struct := ranging_time_struct c; slots_per_rr := slots_per_rr c; aoa_bound_config := aoa_bound_config c; prf_mode := prf_mode c; cap_size_range := cap_size_range c; tx_jitter_window_size := tx_jitter_window_size c; schedule_mode := schedule_mode c; key_rotation := key_rotation c; key_rotation_rate := key_rotation_rate c; session_priority := session_priority c; mac_address_mode := mac_address_mode c; vendor_id := vendor_id c; static_sts_iv := static_sts_iv c; number_of_sts_segments := number_of_sts_segments c; max_rr_retry := max_rr_retry c; uwb_initiation_time := uwb_initiation_time c; hopping_mode := hopping_mode c; block_stride_length := block_stride_length c; result_report_config := result_report_config c; in_band_termination_attempt_count := in_band_termination_attempt_count c; sub_session_id := sub_session_id c; bprf_phr_data_rate := bprf_phr_data_rate c; max_number_of_measurements := max_number_of_measurements c; sts_length := sts_length c; min_frames_per_rr := min_frames_per_rr c; mtu_size := mtu_size c; inter_frame_interval := inter_frame_interval c; session_key := session_key c; sub_session_key_ := sub_session_key_ c; session_data_transfer_status_ntf_config := session_data_transfer_status_ntf_config c; session_time_base := session_time_base c; application_data_endpoint := application_data_endpoint c |}.
Definition set_multi_node_mode (v : option N) (c : app_config) : app_config := {|
  device_type := device_type c; ranging_round_usage := ranging_round_usage c; sts_config := sts_config c; multi_node_mode := v; channel_number := channel_number c; number_of_controlees := number_of_controlees c; device_mac_address := device_mac_address c; dst_mac_address := dst_mac_address c; slot_duration := slot_duration c; ranging_duration := ranging_duration c; sts_index := sts_index c; mac_fcs_type := mac_fcs_type c; ranging_round_control := ranging_round_control c; aoa_result_req := aoa_result_req c; session_info_ntf_config := session_info_ntf_config c; near_proximity_config := near_proximity_config c; far_proximity_config := far_proximity_config c; device_role := device_role c; rframe_config := rframe_config c; rssi_reporting := rssi_reporting c; preamble_code_index := preamble_code_index c; sfd_id := sfd_id c; psdu_data_rate := psdu_data_rate c; preamble_duration := preamble_duration c; link_layer_mode := link_layer_mode c; data_repetition_count := data_repetition_count c; ranging_time_struct := ranging_time_struct c; slots_per_rr := slots_per_rr c; aoa_bound_config := aoa_bound_config c; prf_mode := prf_mode c; cap_size_range := cap_size_range c; tx_jitter_window_size := tx_jitter_window_size c; schedule_mode := schedule_mode c; key_rotation := key_rotation c; key_rotation_rate := key_rotation_rate c; session_priority := session_priority c; mac_address_mode := mac_address_mode c; vendor_id := vendor_id c; static_sts_iv := static_sts_iv c; number_of_sts_segments := number_of_sts_segments c; max_rr_retry := max_rr_retry c; uwb_initiation_time := uwb_initiation_time c; hopping_mode := hopping_mode c; block_stride_length := block_stride_length c; result_report_config := result_report_config c; in_band_termination_attempt_count := in_band_termination_attempt_count c; sub_session_id := sub_session_id c; bprf_phr_data_rate := bprf_phr_data_rate c; max_number_of_measurements := max_number_of_measurements c; sts_length := sts_length c; min_frames_per_rr := min_frames_per_rr c; mtu_size := mtu_size c; inter_frame_interval := inter_frame_interval c; session_key := session_key c; sub_session_key_ := sub_session_key_ c; session_data_transfer_status_ntf_config := session_data_transfer_status_ntf_config c; session_time_base := session_time_base c; application_data_endpoint := application_data_endpoint c |}.
Definition set_channel_number (v : N) (c : app_config) : app_config := {|
  device_type := device_type c; ranging_round_usage := ranging_round_usage c; sts_config := sts_config c; multi_node_mode := multi_node_mode c; channel_number := v; number_of_controlees := number_of_controlees c; device_mac_address := device_mac_address c; dst_mac_address := dst_mac_address c; slot_duration := slot_duration c; ranging_duration := ranging_duration c; sts_index := sts_index c; mac_fcs_type := mac_fcs_type c; ranging_round_control := ranging_round_control c; aoa_result_req := aoa_result_req c; session_info_ntf_config := session_info_ntf_config c; near_proximity_config := near_proximity_config c; far_proximity_config := far_proximity_config c; device_role := device_role c; rframe_config := rframe_config c; rssi_reporting := rssi_reporting c; preamble_code_index := preamble_code_index c; sfd_id := sfd_id c; psdu_data_rate := psdu_data_rate c; preamble_duration := preamble_duration c; link_layer_mode := link_layer_mode c; data_repetition_count := data_repetition_count c; ranging_time_struct := ranging_time_struct c; slots_per_rr := slots_per_rr c; aoa_bound_config := aoa_bound_config c; prf_mode := prf_mode c; cap_size_range := cap_size_range c; tx_jitter_window_size := tx_jitter_window_size c; schedule_mode := schedule_mode c; key_rotation := key_rotation c; key_rotation_rate := key_rotation_rate c; session_priority := session_priority c; mac_address_mode := mac_address_mode c; vendor_id := vendor_id c; static_sts_iv := static_sts_iv c; number_of_sts_segments := number_of_sts_segments c; max_rr_retry := max_rr_retry c; uwb_initiation_time := uwb_initiation_time c; hopping_mode := hopping_mode c; block_stride_length := block_stride_length c; result_report_config := result_report_config c; in_band_termination_attempt_count := in_band_termination_attempt_count c; sub_session_id := sub_session_id c; bprf_phr_data_rate := bprf_phr_data_rate c; max_number_of_measurements := max_number_of_measurements c; sts_length := sts_length c; min_frames_per_rr := min_frames_per_rr c; mtu_size := mtu_size c; inter_frame_interval := inter_frame_interval c; session_key := session_key c; sub_session_key_ := sub_session_key_ c; session_data_transfer_status_ntf_config := session_data_transfer_status_ntf_config c; session_time_base := session_time_base c; application_data_endpoint := application_data_endpoint c |}.
Definition set_number_of_controlees (v : N) (c : app_config) : app_config := {|
  device_type := device_type c; ranging_round_usage := ranging_round_usage c; sts_config := sts_config c; multi_node_mode := multi_node_mode c; channel_number := channel_number c; number_of_controlees := v; device_mac_address := device_mac_address c; dst_mac_address := dst_mac_address c; slot_duration := slot_duration c; ranging_duration := ranging_duration c; sts_index := sts_index c; mac_fcs_type := mac_fcs_type c; ranging_round_control := ranging_round_control c; aoa_result_req := aoa_result_req c; session_info_ntf_config := session_info_ntf_config c; near_proximity_config := near_proximity_config c; far_proximity_config := far_proximity_config c; device_role := device_role c; rframe_config := rframe_config c; rssi_reporting := rssi_reporting c; preamble_code_index := preamble_code_index c; sfd_id := sfd_id c; psdu_data_rate := psdu_data_rate c; preamble_duration := preamble_duration c; link_layer_mode := link_layer_mode c; data_repetition_count := data_repetition_count c; ranging_time_struct := ranging_time_struct c; slots_per_rr := slots_per_rr c; aoa_bound_config := aoa_bound_config c; prf_mode := prf_mode c; cap_size_range := cap_size_range c; tx_jitter_window_size := tx_jitter_window_size c; schedule_mode := schedule_mode c; key_rotation := key_rotation c; key_rotation_rate := key_rotation_rate c; session_priority := session_priority c; mac_address_mode := mac_address_mode c; vendor_id := vendor_id c; static_sts_iv := static_sts_iv c; number_of_sts_segments := number_of_sts_segments c; max_rr_retry := max_rr_retry c; uwb_initiation_time := uwb_initiation_time c; hopping_mode := hopping_mode c; block_stride_length := block_stride_length c; result_report_config := result_report_config c; in_band_termination_attempt_count := in_band_termination_attempt_count c; sub_session_id := sub_session_id c; bprf_phr_data_rate := bprf_phr_data_rate c; max_number_of_measurements := max_number_of_measurements c; sts_length := sts_length c; min_frames_per_rr := min_frames_per_rr c; mtu_size := mtu_size c; inter_frame_interval := inter_frame_interval c; session_key := session_key c; sub_session_key_ := sub_session_key_ c; session_data_transfer_status_ntf_config := session_data_transfer_status_ntf_config c; session_time_base := session_time_base c; application_data_endpoint := application_data_endpoint c |}.
Definition set_device_mac_address (v : option mac_address) (c : app_config) : app_config := {|
  device_type := device_type c; ranging_round_usage := ranging_round_usage c; sts_config := sts_config c; multi_node_mode := multi_node_mode c; channel_number := channel_number c; number_of_controlees := number_of_controlees c; device_mac_address := v; dst_mac_address := dst_mac_address c; slot_duration := slot_duration c; ranging_duration := ranging_duration c; sts_index := sts_index c; mac_fcs_type := mac_fcs_type c; ranging_round_control := ranging_round_control c; aoa_result_req := aoa_result_req c; session_info_ntf_config := session_info_ntf_config c; near_proximity_config := near_proximity_config c; far_proximity_config := far_proximity_config c; device_role := device_role c; rframe_config := rframe_config c; rssi_reporting := rssi_reporting c; preamble_code_index := preamble_code_index c; sfd_id := sfd_id c; psdu_data_rate := psdu_data_rate c; preamble_duration := preamble_duration c; link_layer_mode := link_layer_mode c; data_repetition_count := data_repetition_count c; ranging_time_struct := ranging_time_struct c; slots_per_rr := slots_per_rr c; aoa_bound_config := aoa_bound_config c; prf_mode := prf_mode c; cap_size_range := cap_size_range c; tx_jitter_window_size := tx_jitter_window_size c; schedule_mode := schedule_mode c; key_rotation := key_rotation c; key_rotation_rate := key_rotation_rate c; session_priority := session_priority c; mac_address_mode := mac_address_mode c; vendor_id := vendor_id c; static_sts_iv := static_sts_iv c; number_of_sts_segments := number_of_sts_segments c; max_rr_retry := max_rr_retry c; uwb_initiation_time := uwb_initiation_time c; hopping_mode := hopping_mode c; block_stride_length := block_stride_length c; result_report_config := result_report_config c; in_band_termination_attempt_count := in_band_termination_attempt_count c; sub_session_id := sub_session_id c; bprf_phr_data_rate := bprf_phr_data_rate c; max_number_of_measurements := max_number_of_measurements c; sts_length := sts_length c; min_frames_per_rr := min_frames_per_rr c; mtu_size := mtu_size c; inter_frame_interval := inter_frame_interval c; session_key := session_key c; sub_session_key_ := sub_session_key_ c; session_data_transfer_status_ntf_config := session_data_transfer_status_ntf_config c; session_time_base := session_time_base c; application_data_endpoint := application_data_endpoint c |}.
Definition set_dst_mac_address (v : list mac_address) (c : app_config) : app_config := {|
  device_type := device_type c; ranging_round_usage := ranging_round_usage c; sts_config := sts_config c; multi_node_mode := multi_node_mode c; channel_number := channel_number c; number_of_controlees := number_of_controlees c; device_mac_address := device_mac_address c; dst_mac_address := v; slot_duration := slot_duration c; ranging_duration := ranging_duration c; sts_index := sts_index c; mac_fcs_type := mac_fcs_type c; ranging_round_control := ranging_round_control c; aoa_result_req := aoa_result_req c; session_info_ntf_config := session_info_ntf_config c; near_proximity_config := near_proximity_config c; far_proximity_config := far_proximity_config c; device_role := device_role c; rframe_config := rframe_config c; rssi_reporting := rssi_reporting c; preamble_code_index := preamble_code_index c; sfd_id := sfd_id c; psdu_data_rate := psdu_data_rate c; preamble_duration := preamble_duration c; link_layer_mode := link_layer_mode c; data_repetition_count := data_repetition_count c; ranging_time_struct := ranging_time_struct c; slots_per_rr := slots_per_rr c; aoa_bound_config := aoa_bound_config c; prf_mode := prf_mode c; cap_size_range := cap_size_range c; tx_jitter_window_size := tx_jitter_window_size c; schedule_mode := schedule_mode c; key_rotation := key_rotation c; key_rotation_rate := key_rotation_rate c; session_priority := session_priority c; mac_address_mode := mac_address_mode c; vendor_id := vendor_id c; static_sts_iv := static_sts_iv c; number_of_sts_segments := number_of_sts_segments c; max_rr_retry := max_rr_retry c; uwb_initiation_time := uwb_initiation_time c; hopping_mode := hopping_mode c; block_stride_length := block_stride_length c; result_report_config := result_report_config c; in_band_termination_attempt_count := in_band_termination_attempt_count c; sub_session_id := sub_session_id c; bprf_phr_data_rate := bprf_phr_data_rate c; max_number_of_measurements := max_number_of_measurements c; sts_length := sts_length c; min_frames_per_rr := min_frames_per_rr c; mtu_size := mtu_size c; inter_frame_interval := inter_frame_interval c; session_key := session_key c; sub_session_key_ := sub_session_key_ c; session_data_transfer_status_ntf_config := session_data_transfer_status_ntf_config c; session_time_base := session_time_base c; application_data_endpoint := application_data_endpoint c |}.
Definition set_slot_duration (v : N) (c : app_config) : app_config := {|
  device_type := device_type c; ranging_round_usage := ranging_round_usage c; sts_config := sts_config c; multi_node_mode := multi_node_mode c; channel_number := channel_number c; number_of_controlees := number_of_controlees c; device_mac_address := device_mac_address c; dst_mac_address := dst_mac_address c; slot_duration := v; ranging_duration := ranging_duration c; sts_index := sts_index c; mac_fcs_type := mac_fcs_type c; ranging_round_control := ranging_round_control c; aoa_result_req := aoa_result_req c; session_info_ntf_config := session_info_ntf_config c; near_proximity_config := near_proximity_config c; far_proximity_config := far_proximity_config c; device_role := device_role c; rframe_config := rframe_config c; rssi_reporting := rssi_reporting c; preamble_code_index := preamble_code_index c; sfd_id := sfd_id c; psdu_data_rate := psdu_data_rate c; preamble_duration := preamble_duration c; link_layer_mode := link_layer_mode c; data_repetition_count := data_repetition_count c; ranging_time_struct := ranging_time_struct c; slots_per_rr := slots_per_rr c; aoa_bound_config := aoa_bound_config c; prf_mode := prf_mode c; cap_size_range := cap_size_range c; tx_jitter_window_size := tx_jitter_window_size c; schedule_mode := schedule_mode c; key_rotation := key_rotation c; key_rotation_rate := key_rotation_rate c; session_priority := session_priority c; mac_address_mode := mac_address_mode c; vendor_id := vendor_id c; static_sts_iv := static_sts_iv c; number_of_sts_segments := number_of_sts_segments c; max_rr_retry := max_rr_retry c; uwb_initiation_time := uwb_initiation_time c; hopping_mode := hopping_mode c; block_stride_length := block_stride_length c; result_report_config := result_report_config c; in_band_termination_attempt_count := in_band_termination_attempt_count c; sub_session_id := sub_session_id c; bprf_phr_data_rate := bprf_phr_data_rate c; max_number_of_measurements := max_number_of_measurements c; sts_length := sts_length c; min_frames_per_rr := min_frames_per_rr c; mtu_size := mtu_size c; inter_frame_interval := inter_frame_interval c; session_key := session_key c; sub_session_key_ := sub_session_key_ c; session_data_transfer_status_ntf_config := session_data_transfer_status_ntf_config c; session_time_base := session_time_base c; application_data_endpoint := application_data_endpoint c |}.
Definition set_ranging_duration (v : N) (c : app_config) : app_config := {|
  device_type := device_type c; ranging_round_usage := ranging_round_usage c; sts_config := sts_config c; multi_node_mode := multi_node_mode c; channel_number := channel_number c; number_of_controlees := number_of_controlees c; device_mac_address := device_mac_address c; dst_mac_address := dst_mac_address c; slot_duration := slot_duration c; ranging_duration := v; sts_index := sts_index c; mac_fcs_type := mac_fcs_type c; ranging_round_control := ranging_round_control c; aoa_result_req := aoa_result_req c; session_info_ntf_config := session_info_ntf_config c; near_proximity_config := near_proximity_config c; far_proximity_config := far_proximity_config c; device_role := device_role c; rframe_config := rframe_config c; rssi_reporting := rssi_reporting c; preamble_code_index := preamble_code_index c; sfd_id := sfd_id c; psdu_data_rate := psdu_data_rate c; preamble_duration := preamble_duration c; link_layer_mode := link_layer_mode c; data_repetition_count := data_repetition_count c; ranging_time_struct := ranging_time_struct c; slots_per_rr := slots_per_rr c; aoa_bound_config := aoa_bound_config c; prf_mode := prf_mode c; cap_size_range := cap_size_range c; tx_jitter_window_size := tx_jitter_window_size c; schedule_mode := schedule_mode c; key_rotation := key_rotation c; key_rotation_rate := key_rotation_rate c; session_priority := session_priority c; mac_address_mode := mac_address_mode c; vendor_id := vendor_id c; static_sts_iv := static_sts_iv c; number_of_sts_segments := number_of_sts_segments c; max_rr_retry := max_rr_retry c; uwb_initiation_time := uwb_initiation_time c; hopping_mode := hopping_mode c; block_stride_length := block_stride_length c; result_report_config := result_report_config c; in_band_termination_attempt_count := in_band_termination_attempt_count c; sub_session_id := sub_session_id c; bprf_phr_data_rate := bprf_phr_data_rate c; max_number_of_measurements := max_number_of_measurements c; sts_length := sts_length c; min_frames_per_rr := min_frames_per_rr c; mtu_size := mtu_size c; inter_frame_interval := inter_frame_interval c; session_key := session_key c; sub_session_key_ := sub_session_key_ c; session_data_transfer_status_ntf_config := session_data_transfer_status_ntf_config c; session_time_base := session_time_base c; application_data_endpoint := application_data_endpoint c |}.
Definition set_sts_index (v : N) (c : app_config) : app_config := {|
  device_type := device_type c; ranging_round_usage := ranging_round_usage c; sts_config := sts_config c; multi_node_mode := multi_node_mode c; channel_number := channel_number c; number_of_controlees := number_of_controlees c; device_mac_address := device_mac_address c; dst_mac_address := dst_mac_address c; slot_duration := slot_duration c; ranging_duration := ranging_duration c; sts_index := v; mac_fcs_type := mac_fcs_type c; ranging_round_control := ranging_round_control c; aoa_result_req := aoa_result_req c; session_info_ntf_config := session_info_ntf_config c; near_proximity_config := near_proximity_config c; far_proximity_config := far_proximity_config c; device_role := device_role c; rframe_config := rframe_config c; rssi_reporting := rssi_reporting c; preamble_code_index := preamble_code_index c; sfd_id := sfd_id c; psdu_data_rate := psdu_data_rate c; preamble_duration := preamble_duration c; link_layer_mode := link_layer_mode c; data_repetition_count := data_repetition_count c; ranging_time_struct := ranging_time_struct c; slots_per_rr := slots_per_rr c; aoa_bound_config := aoa_bound_config c; prf_mode := prf_mode c; cap_size_range := cap_size_range c; tx_jitter_window_size := tx_jitter_window_size c; schedule_mode := schedule_mode c; key_rotation := key_rotation c; key_rotation_rate := key_rotation_rate c; session_priority := session_priority c; mac_address_mode := mac_address_mode c; vendor_id := vendor_id c; static_sts_iv := static_sts_iv c; number_of_sts_segments := number_of_sts_segments c; max_rr_retry := max_rr_retry c; uwb_initiation_time := uwb_initiation_time c; hopping_mode := hopping_mode c; block_stride_length := block_stride_length c; result_report_config := result_report_config c; in_band_termination_attempt_count := in_band_termination_attempt_count c; sub_session_id := sub_session_id c; bprf_phr_data_rate := bprf_phr_data_rate c; max_number_of_measurements := max_number_of_measurements c; sts_length := sts_length c; min_frames_per_rr := min_frames_per_rr c; mtu_size := mtu_size c; inter_frame_interval := inter_frame_interval c; session_key := session_key c; sub_session_key_ := sub_session_key_ c; session_data_transfer_status_ntf_config := session_data_transfer_status_ntf_config c; session_time_base := session_time_base c; application_data_endpoint := application_data_endpoint c |}.
Definition set_mac_fcs_type (v : N) (c : app_config) : app_config := {|
  device_type := device_type c; ranging_round_usage := ranging_round_usage c; sts_config := sts_config c; multi_node_mode := multi_node_mode c; channel_number := channel_number c; number_of_controlees := number_of_controlees c; device_mac_address := device_mac_address c; dst_mac_address := dst_mac_address c; slot_duration := slot_duration c; ranging_duration := ranging_duration c; sts_index := sts_index c; mac_fcs_type := v; ranging_round_control := ranging_round_control c; aoa_result_req := aoa_result_req c; session_info_ntf_config := session_info_ntf_config c; near_proximity_config := near_proximity_config c; far_proximity_config := far_proximity_config c; device_role := device_role c; rframe_config := rframe_config c; rssi_reporting := rssi_reporting c; preamble_code_index := preamble_code_index c; sfd_id := sfd_id c; psdu_data_rate := psdu_data_rate c; preamble_duration := preamble_duration c; link_layer_mode := link_layer_mode c; data_repetition_count := data_repetition_count c; ranging_time_struct := ranging_time_struct c; slots_per_rr := slots_per_rr c; aoa_bound_config := aoa_bound_config c; prf_mode := prf_mode c; cap_size_range := cap_size_range c; tx_jitter_window_size := tx_jitter_window_size c; schedule_mode := schedule_mode c; key_rotation := key_rotation c; key_rotation_rate := key_rotation_rate c; session_priority := session_priority c; mac_address_mode := mac_address_mode c; vendor_id := vendor_id c; static_sts_iv := static_sts_iv c; number_of_sts_segments := number_of_sts_segments c; max_rr_retry := max_rr_retry c; uwb_initiation_time := uwb_initiation_time c; hopping_mode := hopping_mode c; block_stride_length := block_stride_length c; result_report_config := result_report_config c; in_band_termination_attempt_count := in_band_termination_attempt_count c; sub_session_id := sub_session_id c; bprf_phr_data_rate := bprf_phr_data_rate c; max_number_of_measurements := max_number_of_measurements c; sts_length := sts_length c; min_frames_per_rr := min_frames_per_rr c; mtu_size := mtu_size c; inter_frame_interval := inter_frame_interval c; session_key := session_key c; sub_session_key_ := sub_session_key_ c; session_data_transfer_status_ntf_config := session_data_transfer_status_ntf_config c; session_time_base := session_time_base c; application_data_endpoint := application_data_endpoint c |}.
Definition set_ranging_round_control (v : N) (c : app_config) : app_config := {|
  device_type := device_type c; ranging_round_usage := ranging_round_usage c; sts_config := sts_config c; multi_node_mode := multi_node_mode c; channel_number := channel_number c; number_of_controlees := number_of_controlees c; device_mac_address := device_mac_address c; dst_mac_address := dst_mac_address c; slot_duration := slot_duration c; ranging_duration := ranging_duration c; sts_index := sts_index c; mac_fcs_type := mac_fcs_type c; ranging_round_control := v; aoa_result_req := aoa_result_req c; session_info_ntf_config := session_info_ntf_config c; near_proximity_config := near_proximity_config c; far_proximity_config := far_proximity_config c; device_role := device_role c; rframe_config := rframe_config c; rssi_reporting := rssi_reporting c; preamble_code_index := preamble_code_index c; sfd_id := sfd_id c; psdu_data_rate := psdu_data_rate c; preamble_duration := preamble_duration c; link_layer_mode := link_layer_mode c; data_repetition_count := data_repetition_count c; ranging_time_struct := ranging_time_struct c; slots_per_rr := slots_per_rr c; aoa_bound_config := aoa_bound_config c; prf_mode := prf_mode c; cap_size_range := cap_size_range c; tx_jitter_window_size := tx_jitter_window_size c; schedule_mode := schedule_mode c; key_rotation := key_rotation c; key_rotation_rate := key_rotation_rate c; session_priority := session_priority c; mac_address_mode := mac_address_mode c; vendor_id := vendor_id c; static_sts_iv := static_sts_iv c; number_of_sts_segments := number_of_sts_segments c; max_rr_retry := max_rr_retry c; uwb_initiation_time := uwb_initiation_time c; hopping_mode := hopping_mode c; block_stride_length := block_stride_length c; result_report_config := result_report_config c; in_band_termination_attempt_count := in_band_termination_attempt_count c; sub_session_id := sub_session_id c; bprf_phr_data_rate := bprf_phr_data_rate c; max_number_of_measurements := max_number_of_measurements c; sts_length := sts_length c; min_frames_per_rr := min_frames_per_rr c; mtu_size := mtu_size c; inter_frame_interval := inter_frame_interval c; session_key := session_key c; sub_session_key_ := sub_session_key_ c; session_data_transfer_status_ntf_config := session_data_transfer_status_ntf_config c; session_time_base := session_time_base c; application_data_endpoint := application_data_endpoint c |}.
Definition set_aoa_result_req (v : N) (c : app_config) : app_config := {|
  device_type := device_type c; ranging_round_usage := ranging_round_usage c; sts_config := sts_config c; multi_node_mode := multi_node_mode c; channel_number := channel_number c; number_of_controlees := number_of_controlees c; device_mac_address := device_mac_address c; dst_mac_address := dst_mac_address c; slot_duration := slot_duration c; ranging_duration := ranging_duration c; sts_index := sts_index c; mac_fcs_type := mac_fcs_type c; ranging_round_control := ranging_round_control c; aoa_result_req := v; session_info_ntf_config := session_info_ntf_config c; near_proximity_config := near_proximity_config c; far_proximity_config := far_proximity_config c; device_role := device_role c; rframe_config := rframe_config c; rssi_reporting := rssi_reporting c; preamble_code_index := preamble_code_index c; sfd_id := sfd_id c; psdu_data_rate := psdu_data_rate c; preamble_duration := preamble_duration c; link_layer_mode := link_layer_mode c; data_repetition_count := data_repetition_count c; ranging_time_struct := ranging_time_struct c; slots_per_rr := slots_per_rr c; aoa_bound_config := aoa_bound_config c; prf_mode := prf_mode c; cap_size_range := cap_size_range c; tx_jitter_window_size := tx_jitter_window_size c; schedule_mode := schedule_mode c; key_rotation := key_rotation c; key_rotation_rate := key_rotation_rate c; session_priority := session_priority c; mac_address_mode := mac_address_mode c; vendor_id := vendor_id c; static_sts_iv := static_sts_iv c; number_of_sts_segments := number_of_sts_segments c; max_rr_retry := max_rr_retry c; uwb_initiation_time := uwb_initiation_time c; hopping_mode := hopping_mode c; block_stride_length := block_stride_length c; result_report_config := result_report_config c; in_band_termination_attempt_count := in_band_termination_attempt_count c; sub_session_id := sub_session_id c; bprf_phr_data_rate := bprf_phr_data_rate c; max_number_of_measurements := max_number_of_measurements c; sts_length := sts_length c; min_frames_per_rr := min_frames_per_rr c; mtu_size := mtu_size c; inter_frame_interval := inter_frame_interval c; session_key := session_key c; sub_session_key_ := sub_session_key_ c; session_data_transfer_status_ntf_config := session_data_transfer_status_ntf_config c; session_time_base := session_time_base c; application_data_endpoint := application_data_endpoint c |}.
Definition set_session_info_ntf_config (v : N) (c : app_config) : app_config := {|
  device_type := device_type c; ranging_round_usage := ranging_round_usage c; sts_config := sts_config c; multi_node_mode := multi_node_mode c; channel_number := channel_number c; number_of_controlees := number_of_controlees c; device_mac_address := device_mac_address c; dst_mac_address := dst_mac_address c; slot_duration := slot_duration c; ranging_duration := ranging_duration c; sts_index := sts_index c; mac_fcs_type := mac_fcs_type c; ranging_round_control := ranging_round_control c; aoa_result_req := aoa_result_req c; session_info_ntf_config := v; near_proximity_config := near_proximity_config c; far_proximity_config := far_proximity_config c; device_role := device_role c; rframe_config := rframe_config c; rssi_reporting := rssi_reporting c; preamble_code_index := preamble_code_index c; sfd_id := sfd_id c; psdu_data_rate := psdu_data_rate c; preamble_duration := preamble_duration c; link_layer_mode := link_layer_mode c; data_repetition_count := data_repetition_count c; ranging_time_struct := ranging_time_struct c; slots_per_rr := slots_per_rr c; aoa_bound_config := aoa_bound_config c; prf_mode := prf_mode c; cap_size_range := cap_size_range c; tx_jitter_window_size := tx_jitter_window_size c; schedule_mode := schedule_mode c; key_rotation := key_rotation c; key_rotation_rate := key_rotation_rate c; session_priority := session_priority c; mac_address_mode := mac_address_mode c; vendor_id := vendor_id c; static_sts_iv := static_sts_iv c; number_of_sts_segments := number_of_sts_segments c; max_rr_retry := max_rr_retry c; uwb_initiation_time := uwb_initiation_time c; hopping_mode := hopping_mode c; block_stride_length := block_stride_length c; result_report_config := result_report_config c; in_band_termination_attempt_count := in_band_termination_attempt_count c; sub_session_id := sub_session_id c; bprf_phr_data_rate := bprf_phr_data_rate c; max_number_of_measurements := max_number_of_measurements c; sts_length := sts_length c; min_frames_per_rr := min_frames_per_rr c; mtu_size := mtu_size c; inter_frame_interval := inter_frame_interval c; session_key := session_key c; sub_session_key_ := sub_session_key_ c; session_data_transfer_status_ntf_config := session_data_transfer_status_ntf_config c; session_time_base := session_time_base c; application_data_endpoint := application_data_endpoint c |}.
Definition set_near_proximity_config (v : N) (c : app_config) : app_config := {|
  device_type := device_type c; ranging_round_usage := ranging_round_usage c; sts_config := sts_config c; multi_node_mode := multi_node_mode c; channel_number := channel_number c; number_of_controlees := number_of_controlees c; device_mac_address := device_mac_address c; dst_mac_address := dst_mac_address c; slot_duration := slot_duration c; ranging_duration := ranging_duration c; sts_index := sts_index c; mac_fcs_type := mac_fcs_type c; ranging_round_control := ranging_round_control c; aoa_result_req := aoa_result_req c; session_info_ntf_config := session_info_ntf_config c; near_proximity_config := v; far_proximity_config := far_proximity_config c; device_role := device_role c; rframe_config := rframe_config c; rssi_reporting := rssi_reporting c; preamble_code_index := preamble_code_index c; sfd_id := sfd_id c; psdu_data_rate := psdu_data_rate c; preamble_duration := preamble_duration c; link_layer_mode := link_layer_mode c; data_repetition_count := data_repetition_count c; ranging_time_struct := ranging_time_struct c; slots_per_rr := slots_per_rr c; aoa_bound_config := aoa_bound_config c; prf_mode := prf_mode c; cap_size_range := cap_size_range c; tx_jitter_window_size := tx_jitter_window_size c; schedule_mode := schedule_mode c; key_rotation := key_rotation c; key_rotation_rate := key_rotation_rate c; session_priority := session_priority c; mac_address_mode := mac_address_mode c; vendor_id := vendor_id c; static_sts_iv := static_sts_iv c; number_of_sts_segments := number_of_sts_segments c; max_rr_retry := max_rr_retry c; uwb_initiation_time := uwb_initiation_time c; hopping_mode := hopping_mode c; block_stride_length := block_stride_length c; result_report_config := result_report_config c; in_band_termination_attempt_count := in_band_termination_attempt_count c; sub_session_id := sub_session_id c; bprf_phr_data_rate := bprf_phr_data_rate c; max_number_of_measurements := max_number_of_measurements c; sts_length := sts_length c; min_frames_per_rr := min_frames_per_rr c; mtu_size := mtu_size c; inter_frame_interval := inter_frame_interval c; session_key := session_key c; sub_session_key_ := sub_session_key_ c; session_data_transfer_status_ntf_config := session_data_transfer_status_ntf_config c; session_time_base := session_time_base c; application_data_endpoint := application_data_endpoint c |}.
Definition set_far_proximity_config (v : N) (c : app_config) : app_config := {|
  device_type := device_type c; ranging_round_usage := ranging_round_usage c; sts_config := sts_config c; multi_node_mode := multi_node_mode c; channel_number := channel_number c; number_of_controlees := number_of_controlees c; device_mac_address := device_mac_address c; dst_mac_address := dst_mac_address c; slot_duration := slot_duration c; ranging_duration := ranging_duration c; sts_index := sts_index c; mac_fcs_type := mac_fcs_type c; ranging_round_control := ranging_round_control c; aoa_result_req := aoa_result_req c; session_info_ntf_config := session_info_ntf_config c; near_proximity_config := near_proximity_config c; far_proximity_config := v; device_role := device_role c; rframe_config := rframe_config c; rssi_reporting := rssi_reporting c; preamble_code_index := preamble_code_index c; sfd_id := sfd_id c; psdu_data_rate := psdu_data_rate c; preamble_duration := preamble_duration c; link_layer_mode := link_layer_mode c; data_repetition_count := data_repetition_count c; ranging_time_struct := ranging_time_struct c; slots_per_rr := slots_per_rr c; aoa_bound_config := aoa_bound_config c; prf_mode := prf_mode c; cap_size_range := cap_size_range c; tx_jitter_window_size := tx_jitter_window_size c; schedule_mode := schedule_mode c; key_rotation := key_rotation c; key_rotation_rate := key_rotation_rate c; session_priority := session_priority c; mac_address_mode := mac_address_mode c; vendor_id := vendor_id c; static_sts_iv := static_sts_iv c; number_of_sts_segments := number_of_sts_segments c; max_rr_retry := max_rr_retry c; uwb_initiation_time := uwb_initiation_time c; hopping_mode := hopping_mode c; block_stride_length := block_stride_length c; result_report_config := result_report_config c; in_band_termination_attempt_count := in_band_termination_attempt_count c; sub_session_id := sub_session_id c; bprf_phr_data_rate := bprf_phr_data_rate c; max_number_of_measurements := max_number_of_measurements c; sts_length := sts_length c; min_frames_per_rr := min_frames_per_rr c; mtu_size := mtu_size c; inter_frame_interval := inter_frame_interval c; session_key := session_key c; sub_session_key_ := sub_session_key_ c; session_data_transfer_status_ntf_config := session_data_transfer_status_ntf_config c; session_time_base := session_time_base c; application_data_endpoint := application_data_endpoint c |}.
Definition set_device_role (v : option N) (c : app_config) : app_config := {|
  device_type := device_type c; ranging_round_usage := ranging_round_usage c; sts_config := sts_config c; multi_node_mode := multi_node_mode c; channel_number := channel_number c; number_of_controlees := number_of_controlees c; device_mac_address := device_mac_address c; dst_mac_address := dst_mac_address c; slot_duration := slot_duration c; ranging_duration := ranging_duration c; sts_index := sts_index c; mac_fcs_type := mac_fcs_type c; ranging_round_control := ranging_round_control c; aoa_result_req := aoa_result_req c; session_info_ntf_config := session_info_ntf_config c; near_proximity_config := near_proximity_config c; far_proximity_config := far_proximity_config c; device_role := v; rframe_config := rframe_config c; rssi_reporting := rssi_reporting c; preamble_code_index := preamble_code_index c; sfd_id := sfd_id c; psdu_data_rate := psdu_data_rate c; preamble_duration := preamble_duration c; link_layer_mode := link_layer_mode c; data_repetition_count := data_repetition_count c; ranging_time_struct := ranging_time_struct c; slots_per_rr := slots_per_rr c; aoa_bound_config := aoa_bound_config c; prf_mode := prf_mode c; cap_size_range := cap_size_range c; tx_jitter_window_size := tx_jitter_window_size c; schedule_mode := schedule_mode c; key_rotation := key_rotation c; key_rotation_rate := key_rotation_rate c; session_priority := session_priority c; mac_address_mode := mac_address_mode c; vendor_id := vendor_id c; static_sts_iv := static_sts_iv c; number_of_sts_segments := number_of_sts_segments c; max_rr_retry := max_rr_retry c; uwb_initiation_time := uwb_initiation_time c; hopping_mode := hopping_mode c; block_stride_length := block_stride_length c; result_report_config := result_report_config c; in_band_termination_attempt_count := in_band_termination_attempt_count c; sub_session_id := sub_session_id c; bprf_phr_data_rate := bprf_phr_data_rate c; max_number_of_measurements := max_number_of_measurements c; sts_length := sts_length c; min_frames_per_rr := min_frames_per_rr c; mtu_size := mtu_size c; inter_frame_interval := inter_frame_interval c; session_key := session_key c; sub_session_key_ := sub_session_key_ c; session_data_transfer_status_ntf_config := session_data_transfer_status_ntf_config c; session_time_base := session_time_base c; application_data_endpoint := application_data_endpoint c |}.
Definition set_rframe_config (v : N) (c : app_config) : app_config := {|
  device_type := device_type c; ranging_round_usage := ranging_round_usage c; sts_config := sts_config c; multi_node_mode := multi_node_mode c; channel_number := channel_number c; number_of_controlees := number_of_controlees c; device_mac_address := device_mac_address c; dst_mac_address := dst_mac_address c; slot_duration := slot_duration c; ranging_duration := ranging_duration c; sts_index := sts_index c; mac_fcs_type := mac_fcs_type c; ranging_round_control := ranging_round_control c; aoa_result_req := aoa_result_req c; session_info_ntf_config := session_info_ntf_config c; near_proximity_config := near_proximity_config c; far_proximity_config := far_proximity_config c; device_role := device_role c; rframe_config := v; rssi_reporting := rssi_reporting c; preamble_code_index := preamble_code_index c; sfd_id := sfd_id c; psdu_data_rate := psdu_data_rate c; preamble_duration := preamble_duration c; link_layer_mode := link_layer_mode c; data_repetition_count := data_repetition_count c; ranging_time_struct := ranging_time_struct c; slots_per_rr := slots_per_rr c; aoa_bound_config := aoa_bound_config c; prf_mode := prf_mode c; cap_size_range := cap_size_range c; tx_jitter_window_size := tx_jitter_window_size c; schedule_mode := schedule_mode c; key_rotation := key_rotation c; key_rotation_rate := key_rotation_rate c; session_priority := session_priority c; mac_address_mode := mac_address_mode c; vendor_id := vendor_id c; static_sts_iv := static_sts_iv c; number_of_sts_segments := number_of_sts_segments c; max_rr_retry := max_rr_retry c; uwb_initiation_time := uwb_initiation_time c; hopping_mode := hopping_mode c; block_stride_length := block_stride_length c; result_report_config := result_report_config c; in_band_termination_attempt_count := in_band_termination_attempt_count c; sub_session_id := sub_session_id c; bprf_phr_data_rate := bprf_phr_data_rate c; max_number_of_measurements := max_number_of_measurements c; sts_length := sts_length c; min_frames_per_rr := min_frames_per_rr c; mtu_size := mtu_size c; inter_frame_interval := inter_frame_interval c; session_key := session_key c; sub_session_key_ := sub_session_key_ c; session_data_transfer_status_ntf_config := session_data_transfer_status_ntf_config c; session_time_base := session_time_base c; application_data_endpoint := application_data_endpoint c |}.
Definition set_rssi_reporting (v : N) (c : app_config) : app_config := {|
  device_type := device_type c; ranging_round_usage := ranging_round_usage c; sts_config := sts_config c; multi_node_mode := multi_node_mode c; channel_number := channel_number c; number_of_controlees := number_of_controlees c; device_mac_address := device_mac_address c; dst_mac_address := dst_mac_address c; slot_duration := slot_duration c; ranging_duration := ranging_duration c; sts_index := sts_index c; mac_fcs_type := mac_fcs_type c; ranging_round_control := ranging_round_control c; aoa_result_req := aoa_result_req c; session_info_ntf_config := session_info_ntf_config c; near_proximity_config := near_proximity_config c; far_proximity_config := far_proximity_config c; device_role := device_role c; rframe_config := rframe_config c; rssi_reporting := v; preamble_code_index := preamble_code_index c; sfd_id := sfd_id c; psdu_data_rate := psdu_data_rate c; preamble_duration := preamble_duration c; link_layer_mode := link_layer_mode c; data_repetition_count := data_repetition_count c; ranging_time_struct := ranging_time_struct c; slots_per_rr := slots_per_rr c; aoa_bound_config := aoa_bound_config c; prf_mode := prf_mode c; cap_size_range := cap_size_range c; tx_jitter_window_size := tx_jitter_window_size c; schedule_mode := schedule_mode c; key_rotation := key_rotation c; key_rotation_rate := key_rotation_rate c; session_priority := session_priority c; mac_address_mode := mac_address_mode c; vendor_id := vendor_id c; static_sts_iv := static_sts_iv c; number_of_sts_segments := number_of_sts_segments c; max_rr_retry := max_rr_retry c; uwb_initiation_time := uwb_initiation_time c; hopping_mode := hopping_mode c; block_stride_length := block_stride_length c; result_report_config := result_report_config c; in_band_termination_attempt_count := in_band_termination_attempt_count c; sub_session_id := sub_session_id c; bprf_phr_data_rate := bprf_phr_data_rate c; max_number_of_measurements := max_number_of_measurements c; sts_length := sts_length c; min_frames_per_rr := min_frames_per_rr c; mtu_size := mtu_size c; inter_frame_interval := inter_frame_interval c; session_key := session_key c; sub_session_key_ := sub_session_key_ c; session_data_transfer_status_ntf_config := session_data_transfer_status_ntf_config c; session_time_base := session_time_base c; application_data_endpoint := application_data_endpoint c |}.
Definition set_preamble_code_index (v : N) (c : app_config) : app_config := {|
  device_type := device_type c; ranging_round_usage := ranging_round_usage c; sts_config := sts_config c; multi_node_mode := multi_node_mode c; channel_number := channel_number c; number_of_controlees := number_of_controlees c; device_mac_address := device_mac_address c; dst_mac_address := dst_mac_address c; slot_duration := slot_duration c; ranging_duration := ranging_duration c; sts_index := sts_index c; mac_fcs_type := mac_fcs_type c; ranging_round_control := ranging_round_control c; aoa_result_req := aoa_result_req c; session_info_ntf_config := session_info_ntf_config c; near_proximity_config := near_proximity_config c; far_proximity_config := far_proximity_config c; device_role := device_role c; rframe_config := rframe_config c; rssi_reporting := rssi_reporting c; preamble_code_index := v; sfd_id := sfd_id c; psdu_data_rate := psdu_data_rate c; preamble_duration := preamble_duration c; link_layer_mode := link_layer_mode c; data_repetition_count := data_repetition_count c; ranging_time_struct := ranging_time_struct c; slots_per_rr := slots_per_rr c; aoa_bound_config := aoa_bound_config c; prf_mode := prf_mode c; cap_size_range := cap_size_range c; tx_jitter_window_size := tx_jitter_window_size c; schedule_mode := schedule_mode c; key_rotation := key_rotation c; key_rotation_rate := key_rotation_rate c; session_priority := session_priority c; mac_address_mode := mac_address_mode c; vendor_id := vendor_id c; static_sts_iv := static_sts_iv c; number_of_sts_segments := number_of_sts_segments c; max_rr_retry := max_rr_retry c; uwb_initiation_time := uwb_initiation_time c; hopping_mode := hopping_mode c; block_stride_length := block_stride_length c; result_report_config := result_report_config c; in_band_termination_attempt_count := in_band_termination_attempt_count c; sub_session_id := sub_session_id c; bprf_phr_data_rate := bprf_phr_data_rate c; max_number_of_measurements := max_number_of_measurements c; sts_length := sts_length c; min_frames_per_rr := min_frames_per_rr c; mtu_size := mtu_size c; inter_frame_interval := inter_frame_interval c; session_key := session_key c; sub_session_key_ := sub_session_key_ c; session_data_transfer_status_ntf_config := session_data_transfer_status_ntf_config c; session_time_base := session_time_base c; application_data_endpoint := application_data_endpoint c |}.
Definition set_sfd_id (v : N) (c : app_config) : app_config := {|
  device_type := device_type c; ranging_round_usage := ranging_round_usage c; sts_config := sts_config c; multi_node_mode := multi_node_mode c; channel_number := channel_number c; number_of_controlees := number_of_controlees c; device_mac_address := device_mac_address c; dst_mac_address := dst_mac_address c; slot_duration := slot_duration c; ranging_duration := ranging_duration c; sts_index := sts_index c; mac_fcs_type := mac_fcs_type c; ranging_round_control := ranging_round_control c; aoa_result_req := aoa_result_req c; session_info_ntf_config := session_info_ntf_config c; near_proximity_config := near_proximity_config c; far_proximity_config := far_proximity_config c; device_role := device_role c; rframe_config := rframe_config c; rssi_reporting := rssi_reporting c; preamble_code_index := preamble_code_index c; sfd_id := v; psdu_data_rate := psdu_data_rate c; preamble_duration := preamble_duration c; link_layer_mode := link_layer_mode c; data_repetition_count := data_repetition_count c; ranging_time_struct := ranging_time_struct c; slots_per_rr := slots_per_rr c; aoa_bound_config := aoa_bound_config c; prf_mode := prf_mode c; cap_size_range := cap_size_range c; tx_jitter_window_size := tx_jitter_window_size c; schedule_mode := schedule_mode c; key_rotation := key_rotation c; key_rotation_rate := key_rotation_rate c; session_priority := session_priority c; mac_address_mode := mac_address_mode c; vendor_id := vendor_id c; static_sts_iv := static_sts_iv c; number_of_sts_segments := number_of_sts_segments c; max_rr_retry := max_rr_retry c; uwb_initiation_time := uwb_initiation_time c; hopping_mode := hopping_mode c; block_stride_length := block_stride_length c; result_report_config := result_report_config c; in_band_termination_attempt_count := in_band_termination_attempt_count c; sub_session_id := sub_session_id c; bprf_phr_data_rate := bprf_phr_data_rate c; max_number_of_measurements := max_number_of_measurements c; sts_length := sts_length c; min_frames_per_rr := min_frames_per_rr c; mtu_size := mtu_size c; inter_frame_interval := inter_frame_interval c; session_key := session_key c; sub_session_key_ := sub_session_key_ c; session_data_transfer_status_ntf_config := session_data_transfer_status_ntf_config c; session_time_base := session_time_base c; application_data_endpoint := application_data_endpoint c |}.
Definition set_psdu_data_rate (v : N) (c : app_config) : app_config := {|
  device_type := device_type c; ranging_round_usage := ranging_round_usage c; sts_config := sts_config c; multi_node_mode := multi_node_mode c; channel_number := channel_number c; number_of_controlees := number_of_controlees c; device_mac_address := device_mac_address c; dst_mac_address := dst_mac_address c; slot_duration := slot_duration c; ranging_duration := ranging_duration c; sts_index := sts_index c; mac_fcs_type := mac_fcs_type c; ranging_round_control := ranging_round_control c; aoa_result_req := aoa_result_req c; session_info_ntf_config := session_info_ntf_config c; near_proximity_config := near_proximity_config c; far_proximity_config := far_proximity_config c; device_role := device_role c; rframe_config := rframe_config c; rssi_reporting := rssi_reporting c; preamble_code_index := preamble_code_index c; sfd_id := sfd_id c; psdu_data_rate := v; preamble_duration := preamble_duration c; link_layer_mode := link_layer_mode c; data_repetition_count := data_repetition_count c; ranging_time_struct := ranging_time_struct c; slots_per_rr := slots_per_rr c; aoa_bound_config := aoa_bound_config c; prf_mode := prf_mode c; cap_size_range := cap_size_range c; tx_jitter_window_size := tx_jitter_window_size c; schedule_mode := schedule_mode c; key_rotation := key_rotation c; key_rotation_rate := key_rotation_rate c; session_priority := session_priority c; mac_address_mode := mac_address_mode c; vendor_id := vendor_id c; static_sts_iv := static_sts_iv c; number_of_sts_segments := number_of_sts_segments c; max_rr_retry := max_rr_retry c; uwb_initiation_time := uwb_initiation_time c; hopping_mode := hopping_mode c; block_stride_length := block_stride_length c; result_report_config := result_report_config c; in_band_termination_attempt_count := in_band_termination_attempt_count c; sub_session_id := sub_session_id c; bprf_phr_data_rate := bprf_phr_data_rate c; max_number_of_measurements := max_number_of_measurements c; sts_length := sts_length c; min_frames_per_rr := min_frames_per_rr c; mtu_size := mtu_size c; inter_frame_interval := inter_frame_interval c; session_key := session_key c; sub_session_key_ := sub_session_key_ c; session_data_transfer_status_ntf_config := session_data_transfer_status_ntf_config c; session_time_base := session_time_base c; application_data_endpoint := application_data_endpoint c |}.
Definition set_preamble_duration (v : N) (c : app_config) : app_config := {|
  device_type := device_type c; ranging_round_usage := ranging_round_usage c; sts_config := sts_config c; multi_node_mode := multi_node_mode c; channel_number := channel_number c; number_of_controlees := number_of_controlees c; device_mac_address := device_mac_address c; dst_mac_address := dst_mac_address c; slot_duration := slot_duration c; ranging_duration := ranging_duration c; sts_index := sts_index c; mac_fcs_type := mac_fcs_type c; ranging_round_control := ranging_round_control c; aoa_result_req := aoa_result_req c; session_info_ntf_config := session_info_ntf_config c; near_proximity_config := near_proximity_config c; far_proximity_config := far_proximity_config c; device_role := device_role c; rframe_config := rframe_config c; rssi_reporting := rssi_reporting c; preamble_code_index := preamble_code_index c; sfd_id := sfd_id c; psdu_data_rate := psdu_data_rate c; preamble_duration := v; link_layer_mode := link_layer_mode c; data_repetition_count := data_repetition_count c; ranging_time_struct := ranging_time_struct c; slots_per_rr := slots_per_rr c; aoa_bound_config := aoa_bound_config c; prf_mode := prf_mode c; cap_size_range := cap_size_range c; tx_jitter_window_size := tx_jitter_window_size c; schedule_mode := schedule_mode c; key_rotation := key_rotation c; key_rotation_rate := key_rotation_rate c; session_priority := session_priority c; mac_address_mode := mac_address_mode c; vendor_id := vendor_id c; static_sts_iv := static_sts_iv c; number_of_sts_segments := number_of_sts_segments c; max_rr_retry := max_rr_retry c; uwb_initiation_time := uwb_initiation_time c; hopping_mode := hopping_mode c; block_stride_length := block_stride_length c; result_report_config := result_report_config c; in_band_termination_attempt_count := in_band_termination_attempt_count c; sub_session_id := sub_session_id c; bprf_phr_data_rate := bprf_phr_data_rate c; max_number_of_measurements := max_number_of_measurements c; sts_length := sts_length c; min_frames_per_rr := min_frames_per_rr c; mtu_size := mtu_size c; inter_frame_interval := inter_frame_interval c; session_key := session_key c; sub_session_key_ := sub_session_key_ c; session_data_transfer_status_ntf_config := session_data_transfer_status_ntf_config c; session_time_base := session_time_base c; application_data_endpoint := application_data_endpoint c |}.
Definition set_link_layer_mode (v : N) (c : app_config) : app_config := {|
  device_type := device_type c; ranging_round_usage := ranging_round_usage c; sts_config := sts_config c; multi_node_mode := multi_node_mode c; channel_number := channel_number c; number_of_controlees := number_of_controlees c; device_mac_address := device_mac_address c; dst_mac_address := dst_mac_address c; slot_duration := slot_duration c; ranging_duration := ranging_duration c; sts_index := sts_index c; mac_fcs_type := mac_fcs_type c; ranging_round_control := ranging_round_control c; aoa_result_req := aoa_result_req c; session_info_ntf_config := session_info_ntf_config c; near_proximity_config := near_proximity_config c; far_proximity_config := far_proximity_config c; device_role := device_role c; rframe_config := rframe_config c; rssi_reporting := rssi_reporting c; preamble_code_index := preamble_code_index c; sfd_id := sfd_id c; psdu_data_rate := psdu_data_rate c; preamble_duration := preamble_duration c; link_layer_mode := v; data_repetition_count := data_repetition_count c; ranging_time_struct := ranging_time_struct c; slots_per_rr := slots_per_rr c; aoa_bound_config := aoa_bound_config c; prf_mode := prf_mode c; cap_size_range := cap_size_range c; tx_jitter_window_size := tx_jitter_window_size c; schedule_mode := schedule_mode c; key_rotation := key_rotation c; key_rotation_rate := key_rotation_rate c; session_priority := session_priority c; mac_address_mode := mac_address_mode c; vendor_id := vendor_id c; static_sts_iv := static_sts_iv c; number_of_sts_segments := number_of_sts_segments c; max_rr_retry := max_rr_retry c; uwb_initiation_time := uwb_initiation_time c; hopping_mode := hopping_mode c; block_stride_length := block_stride_length c; result_report_config := result_report_config c; in_band_termination_attempt_count := in_band_termination_attempt_count c; sub_session_id := sub_session_id c; bprf_phr_data_rate := bprf_phr_data_rate c; max_number_of_measurements := max_number_of_measurements c; sts_length := sts_length c; min_frames_per_rr := min_frames_per_rr c; mtu_size := mtu_size c; inter_frame_interval := inter_frame_interval c; session_key := session_key c; sub_session_key_ := sub_session_key_ c; session_data_transfer_status_ntf_config := session_data_transfer_status_ntf_config c; session_time_base := session_time_base c; application_data_endpoint := application_data_endpoint c |}.
Definition set_data_repetition_count (v : N) (c : app_config) : app_config := {|
  device_type := device_type c; ranging_round_usage := ranging_round_usage c; sts_config := sts_config c; multi_node_mode := multi_node_mode c; channel_number := channel_number c; number_of_controlees := number_of_controlees c; device_mac_address := device_mac_address c; dst_mac_address := dst_mac_address c; slot_duration := slot_duration c; ranging_duration := ranging_duration c; sts_index := sts_index c; mac_fcs_type := mac_fcs_type c; ranging_round_control := ranging_round_control c; aoa_result_req := aoa_result_req c; session_info_ntf_config := session_info_ntf_config c; near_proximity_config := near_proximity_config c; far_proximity_config := far_proximity_config c; device_role := device_role c; rframe_config := rframe_config c; rssi_reporting := rssi_reporting c; preamble_code_index := preamble_code_index c; sfd_id := sfd_id c; psdu_data_rate := psdu_data_rate c; preamble_duration := preamble_duration c; link_layer_mode := link_layer_mode c; data_repetition_count := v; ranging_time_struct := ranging_time_struct c; slots_per_rr := slots_per_rr c; aoa_bound_config := aoa_bound_config c; prf_mode := prf_mode c; cap_size_range := cap_size_range c; tx_jitter_window_size := tx_jitter_window_size c; schedule_mode := schedule_mode c; key_rotation := key_rotation c; key_rotation_rate := key_rotation_rate c; session_priority := session_priority c; mac_address_mode := mac_address_mode c; vendor_id := vendor_id c; static_sts_iv := static_sts_iv c; number_of_sts_segments := number_of_sts_segments c; max_rr_retry := max_rr_retry c; uwb_initiation_time := uwb_initiation_time c; hopping_mode := hopping_mode c; block_stride_length := block_stride_length c; result_report_config := result_report_config c; in_band_termination_attempt_count := in_band_termination_attempt_count c; sub_session_id := sub_session_id c; bprf_phr_data_rate := bprf_phr_data_rate c; max_number_of_measurements := max_number_of_measurements c; sts_length := sts_length c; min_frames_per_rr := min_frames_per_rr c; mtu_size := mtu_size c; inter_frame_interval := inter_frame_interval c; session_key := session_key c; sub_session_key_ := sub_session_key_ c; session_data_transfer_status_ntf_config := session_data_transfer_status_ntf_config c; session_time_base := session_time_base c; application_data_endpoint := application_data_endpoint c |}.
Definition set_ranging_time_struct (v : N) (c : app_config) : app_config := {|
  device_type := device_type c; ranging_round_usage := ranging_round_usage c; sts_config := sts_config c; multi_node_mode := multi_node_mode c; channel_number := channel_number c; number_of_controlees := number_of_controlees c; device_mac_address := device_mac_address c; dst_mac_address := dst_mac_address c; slot_duration := slot_duration c; ranging_duration := ranging_duration c; sts_index := sts_index c; mac_fcs_type := mac_fcs_type c; ranging_round_control := ranging_round_control c; aoa_result_req := aoa_result_req c; session_info_ntf_config := session_info_ntf_config c; near_proximity_config := near_proximity_config c; far_proximity_config := far_proximity_config c; device_role := device_role c; rframe_config := rframe_config c; rssi_reporting := rssi_reporting c; preamble_code_index := preamble_code_index c; sfd_id := sfd_id c; psdu_data_rate := psdu_data_rate c; preamble_duration := preamble_duration c; link_layer_mode := link_layer_mode c; data_repetition_count := data_repetition_count c; ranging_time_struct := v; slots_per_rr := slots_per_rr c; aoa_bound_config := aoa_bound_config c; prf_mode := prf_mode c; cap_size_range := cap_size_range c; tx_jitter_window_size := tx_jitter_window_size c; schedule_mode := schedule_mode c; key_rotation := key_rotation c; key_rotation_rate := key_rotation_rate c; session_priority := session_priority c; mac_address_mode := mac_address_mode c; vendor_id := vendor_id c; static_sts_iv := static_sts_iv c; number_of_sts_segments := number_of_sts_segments c; max_rr_retry := max_rr_retry c; uwb_initiation_time := uwb_initiation_time c; hopping_mode := hopping_mode c; block_stride_length := block_stride_length c; result_report_config := result_report_config c; in_band_termination_attempt_count := in_band_termination_attempt_count c; sub_session_id := sub_session_id c; bprf_phr_data_rate := bprf_phr_data_rate c; max_number_of_measurements := max_number_of_measurements c; sts_length := sts_length c; min_frames_per_rr := min_frames_per_rr c; mtu_size := mtu_size c; inter_frame_interval := inter_frame_interval c; session_key := session_key c; sub_session_key_ := sub_session_key_ c; session_data_transfer_status_ntf_config := session_data_transfer_status_ntf_config c; session_time_base := session_time_base c; application_data_endpoint := application_data_endpoint c |}.
Definition set_slots_per_rr (v : N) (c : app_config) : app_config := {|
  device_type := device_type c; ranging_round_usage := ranging_round_usage c; sts_config := sts_config c; multi_node_mode := multi_node_mode c; channel_number := channel_number c; number_of_controlees := number_of_controlees c; device_mac_address := device_mac_address c; dst_mac_address := dst_mac_address c; slot_duration := slot_duration c; ranging_duration := ranging_duration c; sts_index := sts_index c; mac_fcs_type := mac_fcs_type c; ranging_round_control := ranging_round_control c; aoa_result_req := aoa_result_req c; session_info_ntf_config := session_info_ntf_config c; near_proximity_config := near_proximity_config c; far_proximity_config := far_proximity_config c; device_role := device_role c; rframe_config := rframe_config c; rssi_reporting := rssi_reporting c; preamble_code_index := preamble_code_index c; sfd_id := sfd_id c; psdu_data_rate := psdu_data_rate c; preamble_duration := preamble_duration c; link_layer_mode := link_layer_mode c; data_repetition_count := data_repetition_count c; ranging_time_struct := ranging_time_struct c; slots_per_rr := v; aoa_bound_config := aoa_bound_config c; prf_mode := prf_mode c; cap_size_range := cap_size_range c; tx_jitter_window_size := tx_jitter_window_size c; schedule_mode := schedule_mode c; key_rotation := key_rotation c; key_rotation_rate := key_rotation_rate c; session_priority := session_priority c; mac_address_mode := mac_address_mode c; vendor_id := vendor_id c; static_sts_iv := static_sts_iv c; number_of_sts_segments := number_of_sts_segments c; max_rr_retry := max_rr_retry c; uwb_initiation_time := uwb_initiation_time c; hopping_mode := hopping_mode c; block_stride_length := block_stride_length c; result_report_config := result_report_config c; in_band_termination_attempt_count := in_band_termination_attempt_count c; sub_session_id := sub_session_id c; bprf_phr_data_rate := bprf_phr_data_rate c; max_number_of_measurements := max_number_of_measurements c; sts_length := sts_length c; min_frames_per_rr := min_frames_per_rr c; mtu_size := mtu_size c; inter_frame_interval := inter_frame_interval c; session_key := session_key c; sub_session_key_ := sub_session_key_ c; session_data_transfer_status_ntf_config := session_data_transfer_status_ntf_config c; session_time_base := session_time_base c; application_data_endpoint := application_data_endpoint c |}.
Definition set_aoa_bound_config (v : list N) (c : app_config) : app_config := {|
  device_type := device_type c; ranging_round_usage := ranging_round_usage c; sts_config := sts_config c; multi_node_mode := multi_node_mode c; channel_number := channel_number c; number_of_controlees := number_of_controlees c; device_mac_address := device_mac_address c; dst_mac_address := dst_mac_address c; slot_duration := slot_duration c; ranging_duration := ranging_duration c; sts_index := sts_index c; mac_fcs_type := mac_fcs_type c; ranging_round_control := ranging_round_control c; aoa_result_req := aoa_result_req c; session_info_ntf_config := session_info_ntf_config c; near_proximity_config := near_proximity_config c; far_proximity_config := far_proximity_config c; device_role := device_role c; rframe_config := rframe_config c; rssi_reporting := rssi_reporting c; preamble_code_index := preamble_code_index c; sfd_id := sfd_id c; psdu_data_rate := psdu_data_rate c; preamble_duration := preamble_duration c; link_layer_mode := link_layer_mode c; data_repetition_count := data_repetition_count c; ranging_time_struct := ranging_time_struct c; slots_per_rr := slots_per_rr c; aoa_bound_config := v; prf_mode := prf_mode c; cap_size_range := cap_size_range c; tx_jitter_window_size := tx_jitter_window_size c; schedule_mode := schedule_mode c; key_rotation := key_rotation c; key_rotation_rate := key_rotation_rate c; session_priority := session_priority c; mac_address_mode := mac_address_mode c; vendor_id := vendor_id c; static_sts_iv := static_sts_iv c; number_of_sts_segments := number_of_sts_segments c; max_rr_retry := max_rr_retry c; uwb_initiation_time := uwb_initiation_time c; hopping_mode := hopping_mode c; block_stride_length := block_stride_length c; result_report_config := result_report_config c; in_band_termination_attempt_count := in_band_termination_attempt_count c; sub_session_id := sub_session_id c; bprf_phr_data_rate := bprf_phr_data_rate c; max_number_of_measurements := max_number_of_measurements c; sts_length := sts_length c; min_frames_per_rr := min_frames_per_rr c; mtu_size := mtu_size c; inter_frame_interval := inter_frame_interval c; session_key := session_key c; sub_session_key_ := sub_session_key_ c; session_data_transfer_status_ntf_config := session_data_transfer_status_ntf_config c; session_time_base := session_time_base c; application_data_endpoint := application_data_endpoint c |}.
Definition set_prf_mode (v : N) (c : app_config) : app_config := {|
  device_type := device_type c; ranging_round_usage := ranging_round_usage c; sts_config := sts_config c; multi_node_mode := multi_node_mode c; channel_number := channel_number c; number_of_controlees := number_of_controlees c; device_mac_address := device_mac_address c; dst_mac_address := dst_mac_address c; slot_duration := slot_duration c; ranging_duration := ranging_duration c; sts_index := sts_index c; mac_fcs_type := mac_fcs_type c; ranging_round_control := ranging_round_control c; aoa_result_req := aoa_result_req c; session_info_ntf_config := session_info_ntf_config c; near_proximity_config := near_proximity_config c; far_proximity_config := far_proximity_config c; device_role := device_role c; rframe_config := rframe_config c; rssi_reporting := rssi_reporting c; preamble_code_index := preamble_code_index c; sfd_id := sfd_id c; psdu_data_rate := psdu_data_rate c; preamble_duration := preamble_duration c; link_layer_mode := link_layer_mode c; data_repetition_count := data_repetition_count c; ranging_time_struct := ranging_time_struct c; slots_per_rr := slots_per_rr c; aoa_bound_config := aoa_bound_config c; prf_mode := v; cap_size_range := cap_size_range c; tx_jitter_window_size := tx_jitter_window_size c; schedule_mode := schedule_mode c; key_rotation := key_rotation c; key_rotation_rate := key_rotation_rate c; session_priority := session_priority c; mac_address_mode := mac_address_mode c; vendor_id := vendor_id c; static_sts_iv := static_sts_iv c; number_of_sts_segments := number_of_sts_segments c; max_rr_retry := max_rr_retry c; uwb_initiation_time := uwb_initiation_time c; hopping_mode := hopping_mode c; block_stride_length := block_stride_length c; result_report_config := result_report_config c; in_band_termination_attempt_count := in_band_termination_attempt_count c; sub_session_id := sub_session_id c; bprf_phr_data_rate := bprf_phr_data_rate c; max_number_of_measurements := max_number_of_measurements c; sts_length := sts_length c; min_frames_per_rr := min_frames_per_rr c; mtu_size := mtu_size c; inter_frame_interval := inter_frame_interval c; session_key := session_key c; sub_session_key_ := sub_session_key_ c; session_data_transfer_status_ntf_config := session_data_transfer_status_ntf_config c; session_time_base := session_time_base c; application_data_endpoint := application_data_endpoint c |}.
Definition set_cap_size_range (v : bytes) (c : app_config) : app_config := {|
  device_type := device_type c; ranging_round_usage := ranging_round_usage c; sts_config := sts_config c; multi_node_mode := multi_node_mode c; channel_number := channel_number c; number_of_controlees := number_of_controlees c; device_mac_address := device_mac_address c; dst_mac_address := dst_mac_address c; slot_duration := slot_duration c; ranging_duration := ranging_duration c; sts_index := sts_index c; mac_fcs_type := mac_fcs_type c; ranging_round_control := ranging_round_control c; aoa_result_req := aoa_result_req c; session_info_ntf_config := session_info_ntf_config c; near_proximity_config := near_proximity_config c; far_proximity_config := far_proximity_config c; device_role := device_role c; rframe_config := rframe_config c; rssi_reporting := rssi_reporting c; preamble_code_index := preamble_code_index c; sfd_id := sfd_id c; psdu_data_rate := psdu_data_rate c; preamble_duration := preamble_duration c; link_layer_mode := link_layer_mode c; data_repetition_count := data_repetition_count c; ranging_time_struct := ranging_time_struct c; slots_per_rr := slots_per_rr c; aoa_bound_config := aoa_bound_config c; prf_mode := prf_mode c; cap_size_range := v; tx_jitter_window_size := tx_jitter_window_size c; schedule_mode := schedule_mode c; key_rotation := key_rotation c; key_rotation_rate := key_rotation_rate c; session_priority := session_priority c; mac_address_mode := mac_address_mode c; vendor_id := vendor_id c; static_sts_iv := static_sts_iv c; number_of_sts_segments := number_of_sts_segments c; max_rr_retry := max_rr_retry c; uwb_initiation_time := uwb_initiation_time c; hopping_mode := hopping_mode c; block_stride_length := block_stride_length c; result_report_config := result_report_config c; in_band_termination_attempt_count := in_band_termination_attempt_count c; sub_session_id := sub_session_id c; bprf_phr_data_rate := bprf_phr_data_rate c; max_number_of_measurements := max_number_of_measurements c; sts_length := sts_length c; min_frames_per_rr := min_frames_per_rr c; mtu_size := mtu_size c; inter_frame_interval := inter_frame_interval c; session_key := session_key c; sub_session_key_ := sub_session_key_ c; session_data_transfer_status_ntf_config := session_data_transfer_status_ntf_config c; session_time_base := session_time_base c; application_data_endpoint := application_data_endpoint c |}.
Definition set_tx_jitter_window_size (v : N) (c : app_config) : app_config := {|
  device_type := device_type c; ranging_round_usage := ranging_round_usage c; sts_config := sts_config c; multi_node_mode := multi_node_mode c; channel_number := channel_number c; number_of_controlees := number_of_controlees c; device_mac_address := device_mac_address c; dst_mac_address := dst_mac_address c; slot_duration := slot_duration c; ranging_duration := ranging_duration c; sts_index := sts_index c; mac_fcs_type := mac_fcs_type c; ranging_round_control := ranging_round_control c; aoa_result_req := aoa_result_req c; session_info_ntf_config := session_info_ntf_config c; near_proximity_config := near_proximity_config c; far_proximity_config := far_proximity_config c; device_role := device_role c; rframe_config := rframe_config c; rssi_reporting := rssi_reporting c; preamble_code_index := preamble_code_index c; sfd_id := sfd_id c; psdu_data_rate := psdu_data_rate c; preamble_duration := preamble_duration c; link_layer_mode := link_layer_mode c; data_repetition_count := data_repetition_count c; ranging_time_struct := ranging_time_struct c; slots_per_rr := slots_per_rr c; aoa_bound_config := aoa_bound_config c; prf_mode := prf_mode c; cap_size_range := cap_size_range c; tx_jitter_window_size := v; schedule_mode := schedule_mode c; key_rotation := key_rotation c; key_rotation_rate := key_rotation_rate c; session_priority := session_priority c; mac_address_mode := mac_address_mode c; vendor_id := vendor_id c; static_sts_iv := static_sts_iv c; number_of_sts_segments := number_of_sts_segments c; max_rr_retry := max_rr_retry c; uwb_initiation_time := uwb_initiation_time c; hopping_mode := hopping_mode c; block_stride_length := block_stride_length c; result_report_config := result_report_config c; in_band_termination_attempt_count := in_band_termination_attempt_count c; sub_session_id := sub_session_id c; bprf_phr_data_rate := bprf_phr_data_rate c; max_number_of_measurements := max_number_of_measurements c; sts_length := sts_length c; min_frames_per_rr := min_frames_per_rr c; mtu_size := mtu_size c; inter_frame_interval := inter_frame_interval c; session_key := session_key c; sub_session_key_ := sub_session_key_ c; session_data_transfer_status_ntf_config := session_data_transfer_status_ntf_config c; session_time_base := session_time_base c; application_data_endpoint := application_data_endpoint c |}.
Definition set_schedule_mode (v : option N) (c : app_config) : app_config := {|
  device_type := device_type c; ranging_round_usage := ranging_round_usage c; sts_config := sts_config c; multi_node_mode := multi_node_mode c; channel_number := channel_number c; number_of_controlees := number_of_controlees c; device_mac_address := device_mac_address c; dst_mac_address := dst_mac_address c; slot_duration := slot_duration c; ranging_duration := ranging_duration c; sts_index := sts_index c; mac_fcs_type := mac_fcs_type c; ranging_round_control := ranging_round_control c; aoa_result_req := aoa_result_req c; session_info_ntf_config := session_info_ntf_config c; near_proximity_config := near_proximity_config c; far_proximity_config := far_proximity_config c; device_role := device_role c; rframe_config := rframe_config c; rssi_reporting := rssi_reporting c; preamble_code_index := preamble_code_index c; sfd_id := sfd_id c; psdu_data_rate := psdu_data_rate c; preamble_duration := preamble_duration c; link_layer_mode := link_layer_mode c; data_repetition_count := data_repetition_count c; ranging_time_struct := ranging_time_struct c; slots_per_rr := slots_per_rr c; aoa_bound_config := aoa_bound_config c; prf_mode := prf_mode c; cap_size_range := cap_size_range c; tx_jitter_window_size := tx_jitter_window_size c; schedule_mode := v; key_rotation := key_rotation c; key_rotation_rate := key_rotation_rate c; session_priority := session_priority c; mac_address_mode := mac_address_mode c; vendor_id := vendor_id c; static_sts_iv := static_sts_iv c; number_of_sts_segments := number_of_sts_segments c; max_rr_retry := max_rr_retry c; uwb_initiation_time := uwb_initiation_time c; hopping_mode := hopping_mode c; block_stride_length := block_stride_length c; result_report_config := result_report_config c; in_band_termination_attempt_count := in_band_termination_attempt_count c; sub_session_id := sub_session_id c; bprf_phr_data_rate := bprf_phr_data_rate c; max_number_of_measurements := max_number_of_measurements c; sts_length := sts_length c; min_frames_per_rr := min_frames_per_rr c; mtu_size := mtu_size c; inter_frame_interval := inter_frame_interval c; session_key := session_key c; sub_session_key_ := sub_session_key_ c; session_data_transfer_status_ntf_config := session_data_transfer_status_ntf_config c; session_time_base := session_time_base c; application_data_endpoint := application_data_endpoint c |}.
Definition set_key_rotation (v : N) (c : app_config) : app_config := {|
  device_type := device_type c; ranging_round_usage := ranging_round_usage c; sts_config := sts_config c; multi_node_mode := multi_node_mode c; channel_number := channel_number c; number_of_controlees := number_of_controlees c; device_mac_address := device_mac_address c; dst_mac_address := dst_mac_address c; slot_duration := slot_duration c; ranging_duration := ranging_duration c; sts_index := sts_index c; mac_fcs_type := mac_fcs_type c; ranging_round_control := ranging_round_control c; aoa_result_req := aoa_result_req c; session_info_ntf_config := session_info_ntf_config c; near_proximity_config := near_proximity_config c; far_proximity_config := far_proximity_config c; device_role := device_role c; rframe_config := rframe_config c; rssi_reporting := rssi_reporting c; preamble_code_index := preamble_code_index c; sfd_id := sfd_id c; psdu_data_rate := psdu_data_rate c; preamble_duration := preamble_duration c; link_layer_mode := link_layer_mode c; data_repetition_count := data_repetition_count c; ranging_time_struct := ranging_time_struct c; slots_per_rr := slots_per_rr c; aoa_bound_config := aoa_bound_config c; prf_mode := prf_mode c; cap_size_range := cap_size_range c; tx_jitter_window_size := tx_jitter_window_size c; schedule_mode := schedule_mode c; key_rotation := v; key_rotation_rate := key_rotation_rate c; session_priority := session_priority c; mac_address_mode := mac_address_mode c; vendor_id := vendor_id c; static_sts_iv := static_sts_iv c; number_of_sts_segments := number_of_sts_segments c; max_rr_retry := max_rr_retry c; uwb_initiation_time := uwb_initiation_time c; hopping_mode := hopping_mode c; block_stride_length := block_stride_length c; result_report_config := result_report_config c; in_band_termination_attempt_count := in_band_termination_attempt_count c; sub_session_id := sub_session_id c; bprf_phr_data_rate := bprf_phr_data_rate c; max_number_of_measurements := max_number_of_measurements c; sts_length := sts_length c; min_frames_per_rr := min_frames_per_rr c; mtu_size := mtu_size c; inter_frame_interval := inter_frame_interval c; session_key := session_key c; sub_session_key_ := sub_session_key_ c; session_data_transfer_status_ntf_config := session_data_transfer_status_ntf_config c; session_time_base := session_time_base c; application_data_endpoint := application_data_endpoint c |}.
Definition set_key_rotation_rate (v : N) (c : app_config) : app_config := {|
  device_type := device_type c; ranging_round_usage := ranging_round_usage c; sts_config := sts_config c; multi_node_mode := multi_node_mode c; channel_number := channel_number c; number_of_controlees := number_of_controlees c; device_mac_address := device_mac_address c; dst_mac_address := dst_mac_address c; slot_duration := slot_duration c; ranging_duration := ranging_duration c; sts_index := sts_index c; mac_fcs_type := mac_fcs_type c; ranging_round_control := ranging_round_control c; aoa_result_req := aoa_result_req c; session_info_ntf_config := session_info_ntf_config c; near_proximity_config := near_proximity_config c; far_proximity_config := far_proximity_config c; device_role := device_role c; rframe_config := rframe_config c; rssi_reporting := rssi_reporting c; preamble_code_index := preamble_code_index c; sfd_id := sfd_id c; psdu_data_rate := psdu_data_rate c; preamble_duration := preamble_duration c; link_layer_mode := link_layer_mode c; data_repetition_count := data_repetition_count c; ranging_time_struct := ranging_time_struct c; slots_per_rr := slots_per_rr c; aoa_bound_config := aoa_bound_config c; prf_mode := prf_mode c; cap_size_range := cap_size_range c; tx_jitter_window_size := tx_jitter_window_size c; schedule_mode := schedule_mode c; key_rotation := key_rotation c; key_rotation_rate := v; session_priority := session_priority c; mac_address_mode := mac_address_mode c; vendor_id := vendor_id c; static_sts_iv := static_sts_iv c; number_of_sts_segments := number_of_sts_segments c; max_rr_retry := max_rr_retry c; uwb_initiation_time := uwb_initiation_time c; hopping_mode := hopping_mode c; block_stride_length := block_stride_length c; result_report_config := result_report_config c; in_band_termination_attempt_count := in_band_termination_attempt_count c; sub_session_id := sub_session_id c; bprf_phr_data_rate := bprf_phr_data_rate c; max_number_of_measurements := max_number_of_measurements c; sts_length := sts_length c; min_frames_per_rr := min_frames_per_rr c; mtu_size := mtu_size c; inter_frame_interval := inter_frame_interval c; session_key := session_key c; sub_session_key_ := sub_session_key_ c; session_data_transfer_status_ntf_config := session_data_transfer_status_ntf_config c; session_time_base := session_time_base c; application_data_endpoint := application_data_endpoint c |}.
Definition set_session_priority (v : N) (c : app_config) : app_config := {|
  device_type := device_type c; ranging_round_usage := ranging_round_usage c; sts_config := sts_config c; multi_node_mode := multi_node_mode c; channel_number := channel_number c; number_of_controlees := number_of_controlees c; device_mac_address := device_mac_address c; dst_mac_address := dst_mac_address c; slot_duration := slot_duration c; ranging_duration := ranging_duration c; sts_index := sts_index c; mac_fcs_type := mac_fcs_type c; ranging_round_control := ranging_round_control c; aoa_result_req := aoa_result_req c; session_info_ntf_config := session_info_ntf_config c; near_proximity_config := near_proximity_config c; far_proximity_config := far_proximity_config c; device_role := device_role c; rframe_config := rframe_config c; rssi_reporting := rssi_reporting c; preamble_code_index := preamble_code_index c; sfd_id := sfd_id c; psdu_data_rate := psdu_data_rate c; preamble_duration := preamble_duration c; link_layer_mode := link_layer_mode c; data_repetition_count := data_repetition_count c; ranging_time_struct := ranging_time_struct c; slots_per_rr := slots_per_rr c; aoa_bound_config := aoa_bound_config c; prf_mode := prf_mode c; cap_size_range := cap_size_range c; tx_jitter_window_size := tx_jitter_window_size c; schedule_mode := schedule_mode c; key_rotation := key_rotation c; key_rotation_rate := key_rotation_rate c; session_priority := v; mac_address_mode := mac_address_mode c; vendor_id := vendor_id c; static_sts_iv := static_sts_iv c; number_of_sts_segments := number_of_sts_segments c; max_rr_retry := max_rr_retry c; uwb_initiation_time := uwb_initiation_time c; hopping_mode := hopping_mode c; block_stride_length := block_stride_length c; result_report_config := result_report_config c; in_band_termination_attempt_count := in_band_termination_attempt_count c; sub_session_id := sub_session_id c; bprf_phr_data_rate := bprf_phr_data_rate c; max_number_of_measurements := max_number_of_measurements c; sts_length := sts_length c; min_frames_per_rr := min_frames_per_rr c; mtu_size := mtu_size c; inter_frame_interval := inter_frame_interval c; session_key := session_key c; sub_session_key_ := sub_session_key_ c; session_data_transfer_status_ntf_config := session_data_transfer_status_ntf_config c; session_time_base := session_time_base c; application_data_endpoint := application_data_endpoint c |}.
Definition set_mac_address_mode (v : N) (c : app_config) : app_config := {|
  device_type := device_type c; ranging_round_usage := ranging_round_usage c; sts_config := sts_config c; multi_node_mode := multi_node_mode c; channel_number := channel_number c; number_of_controlees := number_of_controlees c; device_mac_address := device_mac_address c; dst_mac_address := dst_mac_address c; slot_duration := slot_duration c; ranging_duration := ranging_duration c; sts_index := sts_index c; mac_fcs_type := mac_fcs_type c; ranging_round_control := ranging_round_control c; aoa_result_req := aoa_result_req c; session_info_ntf_config := session_info_ntf_config c; near_proximity_config := near_proximity_config c; far_proximity_config := far_proximity_config c; device_role := device_role c; rframe_config := rframe_config c; rssi_reporting := rssi_reporting c; preamble_code_index := preamble_code_index c; sfd_id := sfd_id c; psdu_data_rate := psdu_data_rate c; preamble_duration := preamble_duration c; link_layer_mode := link_layer_mode c; data_repetition_count := data_repetition_count c; ranging_time_struct := ranging_time_struct c; slots_per_rr := slots_per_rr c; aoa_bound_config := aoa_bound_config c; prf_mode := prf_mode c; cap_size_range := cap_size_range c; tx_jitter_window_size := tx_jitter_window_size c; schedule_mode := schedule_mode c; key_rotation := key_rotation c; key_rotation_rate := key_rotation_rate c; session_priority := session_priority c; mac_address_mode := v; vendor_id := vendor_id c; static_sts_iv := static_sts_iv c; number_of_sts_segments := number_of_sts_segments c; max_rr_retry := max_rr_retry c; uwb_initiation_time := uwb_initiation_time c; hopping_mode := hopping_mode c; block_stride_length := block_stride_length c; result_report_config := result_report_config c; in_band_termination_attempt_count := in_band_termination_attempt_count c; sub_session_id := sub_session_id c; bprf_phr_data_rate := bprf_phr_data_rate c; max_number_of_measurements := max_number_of_measurements c; sts_length := sts_length c; min_frames_per_rr := min_frames_per_rr c; mtu_size := mtu_size c; inter_frame_interval := inter_frame_interval c; session_key := session_key c; sub_session_key_ := sub_session_key_ c; session_data_transfer_status_ntf_config := session_data_transfer_status_ntf_config c; session_time_base := session_time_base c; application_data_endpoint := application_data_endpoint c |}.
Definition set_vendor_id (v : N) (c : app_config) : app_config := {|
  device_type := device_type c; ranging_round_usage := ranging_round_usage c; sts_config := sts_config c; multi_node_mode := multi_node_mode c; channel_number := channel_number c; number_of_controlees := number_of_controlees c; device_mac_address := device_mac_address c; dst_mac_address := dst_mac_address c; slot_duration := slot_duration c; ranging_duration := ranging_duration c; sts_index := sts_index c; mac_fcs_type := mac_fcs_type c; ranging_round_control := ranging_round_control c; aoa_result_req := aoa_result_req c; session_info_ntf_config := session_info_ntf_config c; near_proximity_config := near_proximity_config c; far_proximity_config := far_proximity_config c; device_role := device_role c; rframe_config := rframe_config c; rssi_reporting := rssi_reporting c; preamble_code_index := preamble_code_index c; sfd_id := sfd_id c; psdu_data_rate := psdu_data_rate c; preamble_duration := preamble_duration c; link_layer_mode := link_layer_mode c; data_repetition_count := data_repetition_count c; ranging_time_struct := ranging_time_struct c; slots_per_rr := slots_per_rr c; aoa_bound_config := aoa_bound_config c; prf_mode := prf_mode c; cap_size_range := cap_size_range c; tx_jitter_window_size := tx_jitter_window_size c; schedule_mode := schedule_mode c; key_rotation := key_rotation c; key_rotation_rate := key_rotation_rate c; session_priority := session_priority c; mac_address_mode := mac_address_mode c; vendor_id := v; static_sts_iv := static_sts_iv c; number_of_sts_segments := number_of_sts_segments c; max_rr_retry := max_rr_retry c; uwb_initiation_time := uwb_initiation_time c; hopping_mode := hopping_mode c; block_stride_length := block_stride_length c; result_report_config := result_report_config c; in_band_termination_attempt_count := in_band_termination_attempt_count c; sub_session_id := sub_session_id c; bprf_phr_data_rate := bprf_phr_data_rate c; max_number_of_measurements := max_number_of_measurements c; sts_length := sts_length c; min_frames_per_rr := min_frames_per_rr c; mtu_size := mtu_size c; inter_frame_interval := inter_frame_interval c; session_key := session_key c; sub_session_key_ := sub_session_key_ c; session_data_transfer_status_ntf_config := session_data_transfer_status_ntf_config c; session_time_base := session_time_base c; application_data_endpoint := application_data_endpoint c |}.
Definition set_static_sts_iv (v : bytes) (c : app_config) : app_config := {|
  device_type := device_type c; ranging_round_usage := ranging_round_usage c; sts_config := sts_config c; multi_node_mode := multi_node_mode c; channel_number := channel_number c; number_of_controlees := number_of_controlees c; device_mac_address := device_mac_address c; dst_mac_address := dst_mac_address c; slot_duration := slot_duration c; ranging_duration := ranging_duration c; sts_index := sts_index c; mac_fcs_type := mac_fcs_type c; ranging_round_control := ranging_round_control c; aoa_result_req := aoa_result_req c; session_info_ntf_config := session_info_ntf_config c; near_proximity_config := near_proximity_config c; far_proximity_config := far_proximity_config c; device_role := device_role c; rframe_config := rframe_config c; rssi_reporting := rssi_reporting c; preamble_code_index := preamble_code_index c; sfd_id := sfd_id c; psdu_data_rate := psdu_data_rate c; preamble_duration := preamble_duration c; link_layer_mode := link_layer_mode c; data_repetition_count := data_repetition_count c; ranging_time_struct := ranging_time_struct c; slots_per_rr := slots_per_rr c; aoa_bound_config := aoa_bound_config c; prf_mode := prf_mode c; cap_size_range := cap_size_range c; tx_jitter_window_size := tx_jitter_window_size c; schedule_mode := schedule_mode c; key_rotation := key_rotation c; key_rotation_rate := key_rotation_rate c; session_priority := session_priority c; mac_address_mode := mac_address_mode c; vendor_id := vendor_id c; static_sts_iv := v; number_of_sts_segments := number_of_sts_segments c; max_rr_retry := max_rr_retry c; uwb_initiation_time := uwb_initiation_time c; hopping_mode := hopping_mode c; block_stride_length := block_stride_length c; result_report_config := result_report_config c; in_band_termination_attempt_count := in_band_termination_attempt_count c; sub_session_id := sub_session_id c; bprf_phr_data_rate := bprf_phr_data_rate c; max_number_of_measurements := max_number_of_measurements c; sts_length := sts_length c; min_frames_per_rr := min_frames_per_rr c; mtu_size := mtu_size c; inter_frame_interval := inter_frame_interval c; session_key := session_key c; sub_session_key_ := sub_session_key_ c; session_data_transfer_status_ntf_config := session_data_transfer_status_ntf_config c; session_time_base := session_time_base c; application_data_endpoint := application_data_endpoint c |}.
Definition set_number_of_sts_segments (v : N) (c : app_config) : app_config := {|
  device_type := device_type c; ranging_round_usage := ranging_round_usage c; sts_config := sts_config c; multi_node_mode := multi_node_mode c; channel_number := channel_number c; number_of_controlees := number_of_controlees c; device_mac_address := device_mac_address c; dst_mac_address := dst_mac_address c; slot_duration := slot_duration c; ranging_duration := ranging_duration c; sts_index := sts_index c; mac_fcs_type := mac_fcs_type c; ranging_round_control := ranging_round_control c; aoa_result_req := aoa_result_req c; session_info_ntf_config := session_info_ntf_config c; near_proximity_config := near_proximity_config c; far_proximity_config := far_proximity_config c; device_role := device_role c; rframe_config := rframe_config c; rssi_reporting := rssi_reporting c; preamble_code_index := preamble_code_index c; sfd_id := sfd_id c; psdu_data_rate := psdu_data_rate c; preamble_duration := preamble_duration c; link_layer_mode := link_layer_mode c; data_repetition_count := data_repetition_count c; ranging_time_struct := ranging_time_struct c; slots_per_rr := slots_per_rr c; aoa_bound_config := aoa_bound_config c; prf_mode := prf_mode c; cap_size_range := cap_size_range c; tx_jitter_window_size := tx_jitter_window_size c; schedule_mode := schedule_mode c; key_rotation := key_rotation c; key_rotation_rate := key_rotation_rate c; session_priority := session_priority c; mac_address_mode := mac_address_mode c; vendor_id := vendor_id c; static_sts_iv := static_sts_iv c; number_of_sts_segments := v; max_rr_retry := max_rr_retry c; uwb_initiation_time := uwb_initiation_time c; hopping_mode := hopping_mode c; block_stride_length := block_stride_length c; result_report_config := result_report_config c; in_band_termination_attempt_count := in_band_termination_attempt_count c; sub_session_id := sub_session_id c; bprf_phr_data_rate := bprf_phr_data_rate c; max_number_of_measurements := max_number_of_measurements c; sts_length := sts_length c; min_frames_per_rr := min_frames_per_rr c; mtu_size := mtu_size c; inter_frame_interval := inter_frame_interval c; session_key := session_key c; sub_session_key_ := sub_session_key_ c; session_data_transfer_status_ntf_config := session_data_transfer_status_ntf_config c; session_time_base := session_time_base c; application_data_endpoint := application_data_endpoint c |}.
Definition set_max_rr_retry (v : N) (c : app_config) : app_config := {|
  device_type := device_type c; ranging_round_usage := ranging_round_usage c; sts_config := sts_config c; multi_node_mode := multi_node_mode c; channel_number := channel_number c; number_of_controlees := number_of_controlees c; device_mac_address := device_mac_address c; dst_mac_address := dst_mac_address c; slot_duration := slot_duration c; ranging_duration := ranging_duration c; sts_index := sts_index c; mac_fcs_type := mac_fcs_type c; ranging_round_control := ranging_round_control c; aoa_result_req := aoa_result_req c; session_info_ntf_config := session_info_ntf_config c; near_proximity_config := near_proximity_config c; far_proximity_config := far_proximity_config c; device_role := device_role c; rframe_config := rframe_config c; rssi_reporting := rssi_reporting c; preamble_code_index := preamble_code_index c; sfd_id := sfd_id c; psdu_data_rate := psdu_data_rate c; preamble_duration := preamble_duration c; link_layer_mode := link_layer_mode c; data_repetition_count := data_repetition_count c; ranging_time_struct := ranging_time_struct c; slots_per_rr := slots_per_rr c; aoa_bound_config := aoa_bound_config c; prf_mode := prf_mode c; cap_size_range := cap_size_range c; tx_jitter_window_size := tx_jitter_window_size c; schedule_mode := schedule_mode c; key_rotation := key_rotation c; key_rotation_rate := key_rotation_rate c; session_priority := session_priority c; mac_address_mode := mac_address_mode c; vendor_id := vendor_id c; static_sts_iv := static_sts_iv c; number_of_sts_segments := number_of_sts_segments c; max_rr_retry := v; uwb_initiation_time := uwb_initiation_time c; hopping_mode := hopping_mode c; block_stride_length := block_stride_length c; result_report_config := result_report_config c; in_band_termination_attempt_count := in_band_termination_attempt_count c; sub_session_id := sub_session_id c; bprf_phr_data_rate := bprf_phr_data_rate c; max_number_of_measurements := max_number_of_measurements c; sts_length := sts_length c; min_frames_per_rr := min_frames_per_rr c; mtu_size := mtu_size c; inter_frame_interval := inter_frame_interval c; session_key := session_key c; sub_session_key_ := sub_session_key_ c; session_data_transfer_status_ntf_config := session_data_transfer_status_ntf_config c; session_time_base := session_time_base c; application_data_endpoint := application_data_endpoint c |}.
Definition set_uwb_initiation_time (v : N) (c : app_config) : app_config := {|
  device_type := device_type c; ranging_round_usage := ranging_round_usage c; sts_config := sts_config c; multi_node_mode := multi_node_mode c; channel_number := channel_number c; number_of_controlees := number_of_controlees c; device_mac_address := device_mac_address c; dst_mac_address := dst_mac_address c; slot_duration := slot_duration c; ranging_duration := ranging_duration c; sts_index := sts_index c; mac_fcs_type := mac_fcs_type c; ranging_round_control := ranging_round_control c; aoa_result_req := aoa_result_req c; session_info_ntf_config := session_info_ntf_config c; near_proximity_config := near_proximity_config c; far_proximity_config := far_proximity_config c; device_role := device_role c; rframe_config := rframe_config c; rssi_reporting := rssi_reporting c; preamble_code_index := preamble_code_index c; sfd_id := sfd_id c; psdu_data_rate := psdu_data_rate c; preamble_duration := preamble_duration c; link_layer_mode := link_layer_mode c; data_repetition_count := data_repetition_count c; ranging_time_struct := ranging_time_struct c; slots_per_rr := slots_per_rr c; aoa_bound_config := aoa_bound_config c; prf_mode := prf_mode c; cap_size_range := cap_size_range c; tx_jitter_window_size := tx_jitter_window_size c; schedule_mode := schedule_mode c; key_rotation := key_rotation c; key_rotation_rate := key_rotation_rate c; session_priority := session_priority c; mac_address_mode := mac_address_mode c; vendor_id := vendor_id c; static_sts_iv := static_sts_iv c; number_of_sts_segments := number_of_sts_segments c; max_rr_retry := max_rr_retry c; uwb_initiation_time := v; hopping_mode := hopping_mode c; block_stride_length := block_stride_length c; result_report_config := result_report_config c; in_band_termination_attempt_count := in_band_termination_attempt_count c; sub_session_id := sub_session_id c; bprf_phr_data_rate := bprf_phr_data_rate c; max_number_of_measurements := max_number_of_measurements c; sts_length := sts_length c; min_frames_per_rr := min_frames_per_rr c; mtu_size := mtu_size c; inter_frame_interval := inter_frame_interval c; session_key := session_key c; sub_session_key_ := sub_session_key_ c; session_data_transfer_status_ntf_config := session_data_transfer_status_ntf_config c; session_time_base := session_time_base c; application_data_endpoint := application_data_endpoint c |}.
Definition set_hopping_mode (v : N) (c : app_config) : app_config := {|
  device_type := device_type c; ranging_round_usage := ranging_round_usage c; sts_config := sts_config c; multi_node_mode := multi_node_mode c; channel_number := channel_number c; number_of_controlees := number_of_controlees c; device_mac_address := device_mac_address c; dst_mac_address := dst_mac_address c; slot_duration := slot_duration c; ranging_duration := ranging_duration c; sts_index := sts_index c; mac_fcs_type := mac_fcs_type c; ranging_round_control := ranging_round_control c; aoa_result_req := aoa_result_req c; session_info_ntf_config := session_info_ntf_config c; near_proximity_config := near_proximity_config c; far_proximity_config := far_proximity_config c; device_role := device_role c; rframe_config := rframe_config c; rssi_reporting := rssi_reporting c; preamble_code_index := preamble_code_index c; sfd_id := sfd_id c; psdu_data_rate := psdu_data_rate c; preamble_duration := preamble_duration c; link_layer_mode := link_layer_mode c; data_repetition_count := data_repetition_count c; ranging_time_struct := ranging_time_struct c; slots_per_rr := slots_per_rr c; aoa_bound_config := aoa_bound_config c; prf_mode := prf_mode c; cap_size_range := cap_size_range c; tx_jitter_window_size := tx_jitter_window_size c; schedule_mode := schedule_mode c; key_rotation := key_rotation c; key_rotation_rate := key_rotation_rate c; session_priority := session_priority c; mac_address_mode := mac_address_mode c; vendor_id := vendor_id c; static_sts_iv := static_sts_iv c; number_of_sts_segments := number_of_sts_segments c; max_rr_retry := max_rr_retry c; uwb_initiation_time := uwb_initiation_time c; hopping_mode := v; block_stride_length := block_stride_length c; result_report_config := result_report_config c; in_band_termination_attempt_count := in_band_termination_attempt_count c; sub_session_id := sub_session_id c; bprf_phr_data_rate := bprf_phr_data_rate c; max_number_of_measurements := max_number_of_measurements c; sts_length := sts_length c; min_frames_per_rr := min_frames_per_rr c; mtu_size := mtu_size c; inter_frame_interval := inter_frame_interval c; session_key := session_key c; sub_session_key_ := sub_session_key_ c; session_data_transfer_status_ntf_config := session_data_transfer_status_ntf_config c; session_time_base := session_time_base c; application_data_endpoint := application_data_endpoint c |}.
Definition set_block_stride_length (v : N) (c : app_config) : app_config := {|
  device_type := device_type c; ranging_round_usage := ranging_round_usage c; sts_config := sts_config c; multi_node_mode := multi_node_mode c; channel_number := channel_number c; number_of_controlees := number_of_controlees c; device_mac_address := device_mac_address c; dst_mac_address := dst_mac_address c; slot_duration := slot_duration c; ranging_duration := ranging_duration c; sts_index := sts_index c; mac_fcs_type := mac_fcs_type c; ranging_round_control := ranging_round_control c; aoa_result_req := aoa_result_req c; session_info_ntf_config := session_info_ntf_config c; near_proximity_config := near_proximity_config c; far_proximity_config := far_proximity_config c; device_role := device_role c; rframe_config := rframe_config c; rssi_reporting := rssi_reporting c; preamble_code_index := preamble_code_index c; sfd_id := sfd_id c; psdu_data_rate := psdu_data_rate c; preamble_duration := preamble_duration c; link_layer_mode := link_layer_mode c; data_repetition_count := data_repetition_count c; ranging_time_struct := ranging_time_struct c; slots_per_rr := slots_per_rr c; aoa_bound_config := aoa_bound_config c; prf_mode := prf_mode c; cap_size_range := cap_size_range c; tx_jitter_window_size := tx_jitter_window_size c; schedule_mode := schedule_mode c; key_rotation := key_rotation c; key_rotation_rate := key_rotation_rate c; session_priority := session_priority c; mac_address_mode := mac_address_mode c; vendor_id := vendor_id c; static_sts_iv := static_sts_iv c; number_of_sts_segments := number_of_sts_segments c; max_rr_retry := max_rr_retry c; uwb_initiation_time := uwb_initiation_time c; hopping_mode := hopping_mode c; block_stride_length := v; result_report_config := result_report_config c; in_band_termination_attempt_count := in_band_termination_attempt_count c; sub_session_id := sub_session_id c; bprf_phr_data_rate := bprf_phr_data_rate c; max_number_of_measurements := max_number_of_measurements c; sts_length := sts_length c; min_frames_per_rr := min_frames_per_rr c; mtu_size := mtu_size c; inter_frame_interval := inter_frame_interval c; session_key := session_key c; sub_session_key_ := sub_session_key_ c; session_data_transfer_status_ntf_config := session_data_transfer_status_ntf_config c; session_time_base := session_time_base c; application_data_endpoint := application_data_endpoint c |}.
Definition set_result_report_config (v : N) (c : app_config) : app_config := {|
  device_type := device_type c; ranging_round_usage := ranging_round_usage c; sts_config := sts_config c; multi_node_mode := multi_node_mode c; channel_number := channel_number c; number_of_controlees := number_of_controlees c; device_mac_address := device_mac_address c; dst_mac_address := dst_mac_address c; slot_duration := slot_duration c; ranging_duration := ranging_duration c; sts_index := sts_index c; mac_fcs_type := mac_fcs_type c; ranging_round_control := ranging_round_control c; aoa_result_req := aoa_result_req c; session_info_ntf_config := session_info_ntf_config c; near_proximity_config := near_proximity_config c; far_proximity_config := far_proximity_config c; device_role := device_role c; rframe_config := rframe_config c; rssi_reporting := rssi_reporting c; preamble_code_index := preamble_code_index c; sfd_id := sfd_id c; psdu_data_rate := psdu_data_rate c; preamble_duration := preamble_duration c; link_layer_mode := link_layer_mode c; data_repetition_count := data_repetition_count c; ranging_time_struct := ranging_time_struct c; slots_per_rr := slots_per_rr c; aoa_bound_config := aoa_bound_config c; prf_mode := prf_mode c; cap_size_range := cap_size_range c; tx_jitter_window_size := tx_jitter_window_size c; schedule_mode := schedule_mode c; key_rotation := key_rotation c; key_rotation_rate := key_rotation_rate c; session_priority := session_priority c; mac_address_mode := mac_address_mode c; vendor_id := vendor_id c; static_sts_iv := static_sts_iv c; number_of_sts_segments := number_of_sts_segments c; max_rr_retry := max_rr_retry c; uwb_initiation_time := uwb_initiation_time c; hopping_mode := hopping_mode c; block_stride_length := block_stride_length c; result_report_config := v; in_band_termination_attempt_count := in_band_termination_attempt_count c; sub_session_id := sub_session_id c; bprf_phr_data_rate := bprf_phr_data_rate c; max_number_of_measurements := max_number_of_measurements c; sts_length := sts_length c; min_frames_per_rr := min_frames_per_rr c; mtu_size := mtu_size c; inter_frame_interval := inter_frame_interval c; session_key := session_key c; sub_session_key_ := sub_session_key_ c; session_data_transfer_status_ntf_config := session_data_transfer_status_ntf_config c; session_time_base := session_time_base c; application_data_endpoint := application_data_endpoint c |}.
Definition set_in_band_termination_attempt_count (v : N) (c : app_config) : app_config := {|
  device_type := device_type c; ranging_round_usage := ranging_round_usage c; sts_config := sts_config c; multi_node_mode := multi_node_mode c; channel_number := channel_number c; number_of_controlees := number_of_controlees c; device_mac_address := device_mac_address c; dst_mac_address := dst_mac_address c; slot_duration := slot_duration c; ranging_duration := ranging_duration c; sts_index := sts_index c; mac_fcs_type := mac_fcs_type c; ranging_round_control := ranging_round_control c; aoa_result_req := aoa_result_req c; session_info_ntf_config := session_info_ntf_config c; near_proximity_config := near_proximity_config c; far_proximity_config := far_proximity_config c; device_role := device_role c; rframe_config := rframe_config c; rssi_reporting := rssi_reporting c; preamble_code_index := preamble_code_index c; sfd_id := sfd_id c; psdu_data_rate := psdu_data_rate c; preamble_duration := preamble_duration c; link_layer_mode := link_layer_mode c; data_repetition_count := data_repetition_count c; ranging_time_struct := ranging_time_struct c; slots_per_rr := slots_per_rr c; aoa_bound_config := aoa_bound_config c; prf_mode := prf_mode c; cap_size_range := cap_size_range c; tx_jitter_window_size := tx_jitter_window_size c; schedule_mode := schedule_mode c; key_rotation := key_rotation c; key_rotation_rate := key_rotation_rate c; session_priority := session_priority c; mac_address_mode := mac_address_mode c; vendor_id := vendor_id c; static_sts_iv := static_sts_iv c; number_of_sts_segments := number_of_sts_segments c; max_rr_retry := max_rr_retry c; uwb_initiation_time := uwb_initiation_time c; hopping_mode := hopping_mode c; block_stride_length := block_stride_length c; result_report_config := result_report_config c; in_band_termination_attempt_count := v; sub_session_id := sub_session_id c; bprf_phr_data_rate := bprf_phr_data_rate c; max_number_of_measurements := max_number_of_measurements c; sts_length := sts_length c; min_frames_per_rr := min_frames_per_rr c; mtu_size := mtu_size c; inter_frame_interval := inter_frame_interval c; session_key := session_key c; sub_session_key_ := sub_session_key_ c; session_data_transfer_status_ntf_config := session_data_transfer_status_ntf_config c; session_time_base := session_time_base c; application_data_endpoint := application_data_endpoint c |}.
Definition set_sub_session_id (v : N) (c : app_config) : app_config := {|
  device_type := device_type c; ranging_round_usage := ranging_round_usage c; sts_config := sts_config c; multi_node_mode := multi_node_mode c; channel_number := channel_number c; number_of_controlees := number_of_controlees c; device_mac_address := device_mac_address c; dst_mac_address := dst_mac_address c; slot_duration := slot_duration c; ranging_duration := ranging_duration c; sts_index := sts_index c; mac_fcs_type := mac_fcs_type c; ranging_round_control := ranging_round_control c; aoa_result_req := aoa_result_req c; session_info_ntf_config := session_info_ntf_config c; near_proximity_config := near_proximity_config c; far_proximity_config := far_proximity_config c; device_role := device_role c; rframe_config := rframe_config c; rssi_reporting := rssi_reporting c; preamble_code_index := preamble_code_index c; sfd_id := sfd_id c; psdu_data_rate := psdu_data_rate c; preamble_duration := preamble_duration c; link_layer_mode := link_layer_mode c; data_repetition_count := data_repetition_count c; ranging_time_struct := ranging_time_struct c; slots_per_rr := slots_per_rr c; aoa_bound_config := aoa_bound_config c; prf_mode := prf_mode c; cap_size_range := cap_size_range c; tx_jitter_window_size := tx_jitter_window_size c; schedule_mode := schedule_mode c; key_rotation := key_rotation c; key_rotation_rate := key_rotation_rate c; session_priority := session_priority c; mac_address_mode := mac_address_mode c; vendor_id := vendor_id c; static_sts_iv := static_sts_iv c; number_of_sts_segments := number_of_sts_segments c; max_rr_retry := max_rr_retry c; uwb_initiation_time := uwb_initiation_time c; hopping_mode := hopping_mode c; block_stride_length := block_stride_length c; result_report_config := result_report_config c; in_band_termination_attempt_count := in_band_termination_attempt_count c; sub_session_id := v; bprf_phr_data_rate := bprf_phr_data_rate c; max_number_of_measurements := max_number_of_measurements c; sts_length := sts_length c; min_frames_per_rr := min_frames_per_rr c; mtu_size := mtu_size c; inter_frame_interval := inter_frame_interval c; session_key := session_key c; sub_session_key_ := sub_session_key_ c; session_data_transfer_status_ntf_config := session_data_transfer_status_ntf_config c; session_time_base := session_time_base c; application_data_endpoint := application_data_endpoint c |}.
Definition set_bprf_phr_data_rate (v : N) (c : app_config) : app_config := {|
  device_type := device_type c; ranging_round_usage := ranging_round_usage c; sts_config := sts_config c; multi_node_mode := multi_node_mode c; channel_number := channel_number c; number_of_controlees := number_of_controlees c; device_mac_address := device_mac_address c; dst_mac_address := dst_mac_address c; slot_duration := slot_duration c; ranging_duration := ranging_duration c; sts_index := sts_index c; mac_fcs_type := mac_fcs_type c; ranging_round_control := ranging_round_control c; aoa_result_req := aoa_result_req c; session_info_ntf_config := session_info_ntf_config c; near_proximity_config := near_proximity_config c; far_proximity_config := far_proximity_config c; device_role := device_role c; rframe_config := rframe_config c; rssi_reporting := rssi_reporting c; preamble_code_index := preamble_code_index c; sfd_id := sfd_id c; psdu_data_rate := psdu_data_rate c; preamble_duration := preamble_duration c; link_layer_mode := link_layer_mode c; data_repetition_count := data_repetition_count c; ranging_time_struct := ranging_time_struct c; slots_per_rr := slots_per_rr c; aoa_bound_config := aoa_bound_config c; prf_mode := prf_mode c; cap_size_range := cap_size_range c; tx_jitter_window_size := tx_jitter_window_size c; schedule_mode := schedule_mode c; key_rotation := key_rotation c; key_rotation_rate := key_rotation_rate c; session_priority := session_priority c; mac_address_mode := mac_address_mode c; vendor_id := vendor_id c; static_sts_iv := static_sts_iv c; number_of_sts_segments := number_of_sts_segments c; max_rr_retry := max_rr_retry c; uwb_initiation_time := uwb_initiation_time c; hopping_mode := hopping_mode c; block_stride_length := block_stride_length c; result_report_config := result_report_config c; in_band_termination_attempt_count := in_band_termination_attempt_count c; sub_session_id := sub_session_id c; bprf_phr_data_rate := v; max_number_of_measurements := max_number_of_measurements c; sts_length := sts_length c; min_frames_per_rr := min_frames_per_rr c; mtu_size := mtu_size c; inter_frame_interval := inter_frame_interval c; session_key := session_key c; sub_session_key_ := sub_session_key_ c; session_data_transfer_status_ntf_config := session_data_transfer_status_ntf_config c; session_time_base := session_time_base c; application_data_endpoint := application_data_endpoint c |}.
Definition set_max_number_of_measurements (v : N) (c : app_config) : app_config := {|
  device_type := device_type c; ranging_round_usage := ranging_round_usage c; sts_config := sts_config c; multi_node_mode := multi_node_mode c; channel_number := channel_number c; number_of_controlees := number_of_controlees c; device_mac_address := device_mac_address c; dst_mac_address := dst_mac_address c; slot_duration := slot_duration c; ranging_duration := ranging_duration c; sts_index := sts_index c; mac_fcs_type := mac_fcs_type c; ranging_round_control := ranging_round_control c; aoa_result_req := aoa_result_req c; session_info_ntf_config := session_info_ntf_config c; near_proximity_config := near_proximity_config c; far_proximity_config := far_proximity_config c; device_role := device_role c; rframe_config := rframe_config c; rssi_reporting := rssi_reporting c; preamble_code_index := preamble_code_index c; sfd_id := sfd_id c; psdu_data_rate := psdu_data_rate c; preamble_duration := preamble_duration c; link_layer_mode := link_layer_mode c; data_repetition_count := data_repetition_count c; ranging_time_struct := ranging_time_struct c; slots_per_rr := slots_per_rr c; aoa_bound_config := aoa_bound_config c; prf_mode := prf_mode c; cap_size_range := cap_size_range c; tx_jitter_window_size := tx_jitter_window_size c; schedule_mode := schedule_mode c; key_rotation := key_rotation c; key_rotation_rate := key_rotation_rate c; session_priority := session_priority c; mac_address_mode := mac_address_mode c; vendor_id := vendor_id c; static_sts_iv := static_sts_iv c; number_of_sts_segments := number_of_sts_segments c; max_rr_retry := max_rr_retry c; uwb_initiation_time := uwb_initiation_time c; hopping_mode := hopping_mode c; block_stride_length := block_stride_length c; result_report_config := result_report_config c; in_band_termination_attempt_count := in_band_termination_attempt_count c; sub_session_id := sub_session_id c; bprf_phr_data_rate := bprf_phr_data_rate c; max_number_of_measurements := v; sts_length := sts_length c; min_frames_per_rr := min_frames_per_rr c; mtu_size := mtu_size c; inter_frame_interval := inter_frame_interval c; session_key := session_key c; sub_session_key_ := sub_session_key_ c; session_data_transfer_status_ntf_config := session_data_transfer_status_ntf_config c; session_time_base := session_time_base c; application_data_endpoint := application_data_endpoint c |}.
Definition set_sts_length (v : N) (c : app_config) : app_config := {|
  device_type := device_type c; ranging_round_usage := ranging_round_usage c; sts_config := sts_config c; multi_node_mode := multi_node_mode c; channel_number := channel_number c; number_of_controlees := number_of_controlees c; device_mac_address := device_mac_address c; dst_mac_address := dst_mac_address c; slot_duration := slot_duration c; ranging_duration := ranging_duration c; sts_index := sts_index c; mac_fcs_type := mac_fcs_type c; ranging_round_control := ranging_round_control c; aoa_result_req := aoa_result_req c; session_info_ntf_config := session_info_ntf_config c; near_proximity_config := near_proximity_config c; far_proximity_config := far_proximity_config c; device_role := device_role c; rframe_config := rframe_config c; rssi_reporting := rssi_reporting c; preamble_code_index := preamble_code_index c; sfd_id := sfd_id c; psdu_data_rate := psdu_data_rate c; preamble_duration := preamble_duration c; link_layer_mode := link_layer_mode c; data_repetition_count := data_repetition_count c; ranging_time_struct := ranging_time_struct c; slots_per_rr := slots_per_rr c; aoa_bound_config := aoa_bound_config c; prf_mode := prf_mode c; cap_size_range := cap_size_range c; tx_jitter_window_size := tx_jitter_window_size c; schedule_mode := schedule_mode c; key_rotation := key_rotation c; key_rotation_rate := key_rotation_rate c; session_priority := session_priority c; mac_address_mode := mac_address_mode c; vendor_id := vendor_id c; static_sts_iv := static_sts_iv c; number_of_sts_segments := number_of_sts_segments c; max_rr_retry := max_rr_retry c; uwb_initiation_time := uwb_initiation_time c; hopping_mode := hopping_mode c; block_stride_length := block_stride_length c; result_report_config := result_report_config c; in_band_termination_attempt_count := in_band_termination_attempt_count c; sub_session_id := sub_session_id c; bprf_phr_data_rate := bprf_phr_data_rate c; max_number_of_measurements := max_number_of_measurements c; sts_length := v; min_frames_per_rr := min_frames_per_rr c; mtu_size := mtu_size c; inter_frame_interval := inter_frame_interval c; session_key := session_key c; sub_session_key_ := sub_session_key_ c; session_data_transfer_status_ntf_config := session_data_transfer_status_ntf_config c; session_time_base := session_time_base c; application_data_endpoint := application_data_endpoint c |}.
Definition set_min_frames_per_rr (v : N) (c : app_config) : app_config := {|
  device_type := device_type c; ranging_round_usage := ranging_round_usage c; sts_config := sts_config c; multi_node_mode := multi_node_mode c; channel_number := channel_number c; number_of_controlees := number_of_controlees c; device_mac_address := device_mac_address c; dst_mac_address := dst_mac_address c; slot_duration := slot_duration c; ranging_duration := ranging_duration c; sts_index := sts_index c; mac_fcs_type := mac_fcs_type c; ranging_round_control := ranging_round_control c; aoa_result_req := aoa_result_req c; session_info_ntf_config := session_info_ntf_config c; near_proximity_config := near_proximity_config c; far_proximity_config := far_proximity_config c; device_role := device_role c; rframe_config := rframe_config c; rssi_reporting := rssi_reporting c; preamble_code_index := preamble_code_index c; sfd_id := sfd_id c; psdu_data_rate := psdu_data_rate c; preamble_duration := preamble_duration c; link_layer_mode := link_layer_mode c; data_repetition_count := data_repetition_count c; ranging_time_struct := ranging_time_struct c; slots_per_rr := slots_per_rr c; aoa_bound_config := aoa_bound_config c; prf_mode := prf_mode c; cap_size_range := cap_size_range c; tx_jitter_window_size := tx_jitter_window_size c; schedule_mode := schedule_mode c; key_rotation := key_rotation c; key_rotation_rate := key_rotation_rate c; session_priority := session_priority c; mac_address_mode := mac_address_mode c; vendor_id := vendor_id c; static_sts_iv := static_sts_iv c; number_of_sts_segments := number_of_sts_segments c; max_rr_retry := max_rr_retry c; uwb_initiation_time := uwb_initiation_time c; hopping_mode := hopping_mode c; block_stride_length := block_stride_length c; result_report_config := result_report_config c; in_band_termination_attempt_count := in_band_termination_attempt_count c; sub_session_id := sub_session_id c; bprf_phr_data_rate := bprf_phr_data_rate c; max_number_of_measurements := max_number_of_measurements c; sts_length := sts_length c; min_frames_per_rr := v; mtu_size := mtu_size c; inter_frame_interval := inter_frame_interval c; session_key := session_key c; sub_session_key_ := sub_session_key_ c; session_data_transfer_status_ntf_config := session_data_transfer_status_ntf_config c; session_time_base := session_time_base c; application_data_endpoint := application_data_endpoint c |}.
Definition set_mtu_size (v : N) (c : app_config) : app_config := {|
  device_type := device_type c; ranging_round_usage := ranging_round_usage c; sts_config := sts_config c; multi_node_mode := multi_node_mode c; channel_number := channel_number c; number_of_controlees := number_of_controlees c; device_mac_address := device_mac_address c; dst_mac_address := dst_mac_address c; slot_duration := slot_duration c; ranging_duration := ranging_duration c; sts_index := sts_index c; mac_fcs_type := mac_fcs_type c; ranging_round_control := ranging_round_control c; aoa_result_req := aoa_result_req c; session_info_ntf_config := session_info_ntf_config c; near_proximity_config := near_proximity_config c; far_proximity_config := far_proximity_config c; device_role := device_role c; rframe_config := rframe_config c; rssi_reporting := rssi_reporting c; preamble_code_index := preamble_code_index c; sfd_id := sfd_id c; psdu_data_rate := psdu_data_rate c; preamble_duration := preamble_duration c; link_layer_mode := link_layer_mode c; data_repetition_count := data_repetition_count c; ranging_time_struct := ranging_time_struct c; slots_per_rr := slots_per_rr c; aoa_bound_config := aoa_bound_config c; prf_mode := prf_mode c; cap_size_range := cap_size_range c; tx_jitter_window_size := tx_jitter_window_size c; schedule_mode := schedule_mode c; key_rotation := key_rotation c; key_rotation_rate := key_rotation_rate c; session_priority := session_priority c; mac_address_mode := mac_address_mode c; vendor_id := vendor_id c; static_sts_iv := static_sts_iv c; number_of_sts_segments := number_of_sts_segments c; max_rr_retry := max_rr_retry c; uwb_initiation_time := uwb_initiation_time c; hopping_mode := hopping_mode c; block_stride_length := block_stride_length c; result_report_config := result_report_config c; in_band_termination_attempt_count := in_band_termination_attempt_count c; sub_session_id := sub_session_id c; bprf_phr_data_rate := bprf_phr_data_rate c; max_number_of_measurements := max_number_of_measurements c; sts_length := sts_length c; min_frames_per_rr := min_frames_per_rr c; mtu_size := v; inter_frame_interval := inter_frame_interval c; session_key := session_key c; sub_session_key_ := sub_session_key_ c; session_data_transfer_status_ntf_config := session_data_transfer_status_ntf_config c; session_time_base := session_time_base c; application_data_endpoint := application_data_endpoint c |}.
Definition set_inter_frame_interval (v : N) (c : app_config) : app_config := {|
  device_type := device_type c; ranging_round_usage := ranging_round_usage c; sts_config := sts_config c; multi_node_mode := multi_node_mode c; channel_number := channel_number c; number_of_controlees := number_of_controlees c; device_mac_address := device_mac_address c; dst_mac_address := dst_mac_address c; slot_duration := slot_duration c; ranging_duration := ranging_duration c; sts_index := sts_index c; mac_fcs_type := mac_fcs_type c; ranging_round_control := ranging_round_control c; aoa_result_req := aoa_result_req c; session_info_ntf_config := session_info_ntf_config c; near_proximity_config := near_proximity_config c; far_proximity_config := far_proximity_config c; device_role := device_role c; rframe_config := rframe_config c; rssi_reporting := rssi_reporting c; preamble_code_index := preamble_code_index c; sfd_id := sfd_id c; psdu_data_rate := psdu_data_rate c; preamble_duration := preamble_duration c; link_layer_mode := link_layer_mode c; data_repetition_count := data_repetition_count c; ranging_time_struct := ranging_time_struct c; slots_per_rr := slots_per_rr c; aoa_bound_config := aoa_bound_config c; prf_mode := prf_mode c; cap_size_range := cap_size_range c; tx_jitter_window_size := tx_jitter_window_size c; schedule_mode := schedule_mode c; key_rotation := key_rotation c; key_rotation_rate := key_rotation_rate c; session_priority := session_priority c; mac_address_mode := mac_address_mode c; vendor_id := vendor_id c; static_sts_iv := static_sts_iv c; number_of_sts_segments := number_of_sts_segments c; max_rr_retry := max_rr_retry c; uwb_initiation_time := uwb_initiation_time c; hopping_mode := hopping_mode c; block_stride_length := block_stride_length c; result_report_config := result_report_config c; in_band_termination_attempt_count := in_band_termination_attempt_count c; sub_session_id := sub_session_id c; bprf_phr_data_rate := bprf_phr_data_rate c; max_number_of_measurements := max_number_of_measurements c; sts_length := sts_length c; min_frames_per_rr := min_frames_per_rr c; mtu_size := mtu_size c; inter_frame_interval := v; session_key := session_key c; sub_session_key_ := sub_session_key_ c; session_data_transfer_status_ntf_config := session_data_transfer_status_ntf_config c; session_time_base := session_time_base c; application_data_endpoint := application_data_endpoint c |}.
Definition set_session_key (v : bytes) (c : app_config) : app_config := {|
  device_type := device_type c; ranging_round_usage := ranging_round_usage c; sts_config := sts_config c; multi_node_mode := multi_node_mode c; channel_number := channel_number c; number_of_controlees := number_of_controlees c; device_mac_address := device_mac_address c; dst_mac_address := dst_mac_address c; slot_duration := slot_duration c; ranging_duration := ranging_duration c; sts_index := sts_index c; mac_fcs_type := mac_fcs_type c; ranging_round_control := ranging_round_control c; aoa_result_req := aoa_result_req c; session_info_ntf_config := session_info_ntf_config c; near_proximity_config := near_proximity_config c; far_proximity_config := far_proximity_config c; device_role := device_role c; rframe_config := rframe_config c; rssi_reporting := rssi_reporting c; preamble_code_index := preamble_code_index c; sfd_id := sfd_id c; psdu_data_rate := psdu_data_rate c; preamble_duration := preamble_duration c; link_layer_mode := link_layer_mode c; data_repetition_count := data_repetition_count c; ranging_time_struct := ranging_time_struct c; slots_per_rr := slots_per_rr c; aoa_bound_config := aoa_bound_config c; prf_mode := prf_mode c; cap_size_range := cap_size_range c; tx_jitter_window_size := tx_jitter_window_size c; schedule_mode := schedule_mode c; key_rotation := key_rotation c; key_rotation_rate := key_rotation_rate c; session_priority := session_priority c; mac_address_mode := mac_address_mode c; vendor_id := vendor_id c; static_sts_iv := static_sts_iv c; number_of_sts_segments := number_of_sts_segments c; max_rr_retry := max_rr_retry c; uwb_initiation_time := uwb_initiation_time c; hopping_mode := hopping_mode c; block_stride_length := block_stride_length c; result_report_config := result_report_config c; in_band_termination_attempt_count := in_band_termination_attempt_count c; sub_session_id := sub_session_id c; bprf_phr_data_rate := bprf_phr_data_rate c; max_number_of_measurements := max_number_of_measurements c; sts_length := sts_length c; min_frames_per_rr := min_frames_per_rr c; mtu_size := mtu_size c; inter_frame_interval := inter_frame_interval c; session_key := v; sub_session_key_ := sub_session_key_ c; session_data_transfer_status_ntf_config := session_data_transfer_status_ntf_config c; session_time_base := session_time_base c; application_data_endpoint := application_data_endpoint c |}.
Definition set_sub_session_key (v : sub_session_key) (c : app_config) : app_config := {|
  device_type := device_type c; ranging_round_usage := ranging_round_usage c; sts_config := sts_config c; multi_node_mode := multi_node_mode c; channel_number := channel_number c; number_of_controlees := number_of_controlees c; device_mac_address := device_mac_address c; dst_mac_address := dst_mac_address c; slot_duration := slot_duration c; ranging_duration := ranging_duration c; sts_index := sts_index c; mac_fcs_type := mac_fcs_type c; ranging_round_control := ranging_round_control c; aoa_result_req := aoa_result_req c; session_info_ntf_config := session_info_ntf_config c; near_proximity_config := near_proximity_config c; far_proximity_config := far_proximity_config c; device_role := device_role c; rframe_config := rframe_config c; rssi_reporting := rssi_reporting c; preamble_code_index := preamble_code_index c; sfd_id := sfd_id c; psdu_data_rate := psdu_data_rate c; preamble_duration := preamble_duration c; link_layer_mode := link_layer_mode c; data_repetition_count := data_repetition_count c; ranging_time_struct := ranging_time_struct c; slots_per_rr := slots_per_rr c; aoa_bound_config := aoa_bound_config c; prf_mode := prf_mode c; cap_size_range := cap_size_range c; tx_jitter_window_size := tx_jitter_window_size c; schedule_mode := schedule_mode c; key_rotation := key_rotation c; key_rotation_rate := key_rotation_rate c; session_priority := session_priority c; mac_address_mode := mac_address_mode c; vendor_id := vendor_id c; static_sts_iv := static_sts_iv c; number_of_sts_segments := number_of_sts_segments c; max_rr_retry := max_rr_retry c; uwb_initiation_time := uwb_initiation_time c; hopping_mode := hopping_mode c; block_stride_length := block_stride_length c; result_report_config := result_report_config c; in_band_termination_attempt_count := in_band_termination_attempt_count c; sub_session_id := sub_session_id c; bprf_phr_data_rate := bprf_phr_data_rate c; max_number_of_measurements := max_number_of_measurements c; sts_length := sts_length c; min_frames_per_rr := min_frames_per_rr c; mtu_size := mtu_size c; inter_frame_interval := inter_frame_interval c; session_key := session_key c; sub_session_key_ := v; session_data_transfer_status_ntf_config := session_data_transfer_status_ntf_config c; session_time_base := session_time_base c; application_data_endpoint := application_data_endpoint c |}.
Definition set_session_data_transfer_status_ntf_config (v : N) (c : app_config) : app_config := {|
  device_type := device_type c; ranging_round_usage := ranging_round_usage c; sts_config := sts_config c; multi_node_mode := multi_node_mode c; channel_number := channel_number c; number_of_controlees := number_of_controlees c; device_mac_address := device_mac_address c; dst_mac_address := dst_mac_address c; slot_duration := slot_duration c; ranging_duration := ranging_duration c; sts_index := sts_index c; mac_fcs_type := mac_fcs_type c; ranging_round_control := ranging_round_control c; aoa_result_req := aoa_result_req c; session_info_ntf_config := session_info_ntf_config c; near_proximity_config := near_proximity_config c; far_proximity_config := far_proximity_config c; device_role := device_role c; rframe_config := rframe_config c; rssi_reporting := rssi_reporting c; preamble_code_index := preamble_code_index c; sfd_id := sfd_id c; psdu_data_rate := psdu_data_rate c; preamble_duration := preamble_duration c; link_layer_mode := link_layer_mode c; data_repetition_count := data_repetition_count c; ranging_time_struct := ranging_time_struct c; slots_per_rr := slots_per_rr c; aoa_bound_config := aoa_bound_config c; prf_mode := prf_mode c; cap_size_range := cap_size_range c; tx_jitter_window_size := tx_jitter_window_size c; schedule_mode := schedule_mode c; key_rotation := key_rotation c; key_rotation_rate := key_rotation_rate c; session_priority := session_priority c; mac_address_mode := mac_address_mode c; vendor_id := vendor_id c; static_sts_iv := static_sts_iv c; number_of_sts_segments := number_of_sts_segments c; max_rr_retry := max_rr_retry c; uwb_initiation_time := uwb_initiation_time c; hopping_mode := hopping_mode c; block_stride_length := block_stride_length c; result_report_config := result_report_config c; in_band_termination_attempt_count := in_band_termination_attempt_count c; sub_session_id := sub_session_id c; bprf_phr_data_rate := bprf_phr_data_rate c; max_number_of_measurements := max_number_of_measurements c; sts_length := sts_length c; min_frames_per_rr := min_frames_per_rr c; mtu_size := mtu_size c; inter_frame_interval := inter_frame_interval c; session_key := session_key c; sub_session_key_ := sub_session_key_ c; session_data_transfer_status_ntf_config := v; session_time_base := session_time_base c; application_data_endpoint := application_data_endpoint c |}.
Definition set_session_time_base (v : bytes) (c : app_config) : app_config := {|
  device_type := device_type c; ranging_round_usage := ranging_round_usage c; sts_config := sts_config c; multi_node_mode := multi_node_mode c; channel_number := channel_number c; number_of_controlees := number_of_controlees c; device_mac_address := device_mac_address c; dst_mac_address := dst_mac_address c; slot_duration := slot_duration c; ranging_duration := ranging_duration c; sts_index := sts_index c; mac_fcs_type := mac_fcs_type c; ranging_round_control := ranging_round_control c; aoa_result_req := aoa_result_req c; session_info_ntf_config := session_info_ntf_config c; near_proximity_config := near_proximity_config c; far_proximity_config := far_proximity_config c; device_role := device_role c; rframe_config := rframe_config c; rssi_reporting := rssi_reporting c; preamble_code_index := preamble_code_index c; sfd_id := sfd_id c; psdu_data_rate := psdu_data_rate c; preamble_duration := preamble_duration c; link_layer_mode := link_layer_mode c; data_repetition_count := data_repetition_count c; ranging_time_struct := ranging_time_struct c; slots_per_rr := slots_per_rr c; aoa_bound_config := aoa_bound_config c; prf_mode := prf_mode c; cap_size_range := cap_size_range c; tx_jitter_window_size := tx_jitter_window_size c; schedule_mode := schedule_mode c; key_rotation := key_rotation c; key_rotation_rate := key_rotation_rate c; session_priority := session_priority c; mac_address_mode := mac_address_mode c; vendor_id := vendor_id c; static_sts_iv := static_sts_iv c; number_of_sts_segments := number_of_sts_segments c; max_rr_retry := max_rr_retry c; uwb_initiation_time := uwb_initiation_time c; hopping_mode := hopping_mode c; block_stride_length := block_stride_length c; result_report_config := result_report_config c; in_band_termination_attempt_count := in_band_termination_attempt_count c; sub_session_id := sub_session_id c; bprf_phr_data_rate := bprf_phr_data_rate c; max_number_of_measurements := max_number_of_measurements c; sts_length := sts_length c; min_frames_per_rr := min_frames_per_rr c; mtu_size := mtu_size c; inter_frame_interval := inter_frame_interval c; session_key := session_key c; sub_session_key_ := sub_session_key_ c; session_data_transfer_status_ntf_config := session_data_transfer_status_ntf_config c; session_time_base := v; application_data_endpoint := application_data_endpoint c |}.
Definition set_application_data_endpoint (v : N) (c : app_config) : app_config := {|
  device_type := device_type c; ranging_round_usage := ranging_round_usage c; sts_config := sts_config c; multi_node_mode := multi_node_mode c; channel_number := channel_number c; number_of_controlees := number_of_controlees c; device_mac_address := device_mac_address c; dst_mac_address := dst_mac_address c; slot_duration := slot_duration c; ranging_duration := ranging_duration c; sts_index := sts_index c; mac_fcs_type := mac_fcs_type c; ranging_round_control := ranging_round_control c; aoa_result_req := aoa_result_req c; session_info_ntf_config := session_info_ntf_config c; near_proximity_config := near_proximity_config c; far_proximity_config := far_proximity_config c; device_role := device_role c; rframe_config := rframe_config c; rssi_reporting := rssi_reporting c; preamble_code_index := preamble_code_index c; sfd_id := sfd_id c; psdu_data_rate := psdu_data_rate c; preamble_duration := preamble_duration c; link_layer_mode := link_layer_mode c; data_repetition_count := data_repetition_count c; ranging_time_struct := ranging_time_struct c; slots_per_rr := slots_per_rr c; aoa_bound_config := aoa_bound_config c; prf_mode := prf_mode c; cap_size_range := cap_size_range c; tx_jitter_window_size := tx_jitter_window_size c; schedule_mode := schedule_mode c; key_rotation := key_rotation c; key_rotation_rate := key_rotation_rate c; session_priority := session_priority c; mac_address_mode := mac_address_mode c; vendor_id := vendor_id c; static_sts_iv := static_sts_iv c; number_of_sts_segments := number_of_sts_segments c; max_rr_retry := max_rr_retry c; uwb_initiation_time := uwb_initiation_time c; hopping_mode := hopping_mode c; block_stride_length := block_stride_length c; result_report_config := result_report_config c; in_band_termination_attempt_count := in_band_termination_attempt_count c; sub_session_id := sub_session_id c; bprf_phr_data_rate := bprf_phr_data_rate c; max_number_of_measurements := max_number_of_measurements c; sts_length := sts_length c; min_frames_per_rr := min_frames_per_rr c; mtu_size := mtu_size c; inter_frame_interval := inter_frame_interval c; session_key := session_key c; sub_session_key_ := sub_session_key_ c; session_data_transfer_status_ntf_config := session_data_transfer_status_ntf_config c; session_time_base := session_time_base c; application_data_endpoint := v |}.

(** Values of the enums of uci_packets.pdl used as parameter values. *)
Definition VALUES_DeviceType : list N := [0x00; 0x01]. (* uci_packets.pdl:268 *)
Definition VALUES_RangingRoundUsage : list N := [0x01; 0x02; 0x03; 0x04; 0x05; 0x06; 0x07; 0x08]. (* uci_packets.pdl:277 *)
Definition VALUES_StsConfig : list N := [0x00; 0x01; 0x02; 0x03; 0x04]. (* uci_packets.pdl:288 *)
Definition VALUES_MultiNodeMode : list N := [0x00; 0x01]. (* uci_packets.pdl:296 *)
Definition VALUES_ChannelNumber : list N := [0x05; 0x06; 0x08; 0x09; 0x0a; 0x0c; 0x0d; 0x0e]. (* uci_packets.pdl:301 *)
Definition VALUES_MacFcsType : list N := [0x00; 0x01]. (* uci_packets.pdl:312 *)
Definition VALUES_AoaResultReq : list N := [0x00; 0x01; 0x02; 0x03]. (* uci_packets.pdl:326 *)
Definition VALUES_SessionInfoNtfConfig : list N := [0x00; 0x01; 0x02; 0x03; 0x04; 0x05; 0x06; 0x07]. (* uci_packets.pdl:333 *)
Definition VALUES_DeviceRole : list N := [0x00; 0x01; 0x05; 0x06; 0x07; 0x08]. (* uci_packets.pdl:344 *)
Definition VALUES_RframeConfig : list N := [0x00; 0x01; 0x03]. (* uci_packets.pdl:357 *)
Definition VALUES_RssiReporting : list N := [0x00; 0x01]. (* uci_packets.pdl:363 *)
Definition VALUES_PsduDataRate : list N := [0x00; 0x01; 0x02; 0x03]. (* uci_packets.pdl:368 *)
Definition VALUES_PreambleDuration : list N := [0x00; 0x01]. (* uci_packets.pdl:375 *)
Definition VALUES_LinkLayerMode : list N := [0x00]. (* uci_packets.pdl:380 *)
Definition VALUES_RangingTimeStruct : list N := [0x01]. (* uci_packets.pdl:384 *)
Definition VALUES_PrfMode : list N := [0x00; 0x01; 0x02]. (* uci_packets.pdl:388 *)
Definition VALUES_ScheduleMode : list N := [0x00; 0x01]. (* uci_packets.pdl:394 *)
Definition VALUES_KeyRotation : list N := [0x00; 0x01]. (* uci_packets.pdl:399 *)
Definition VALUES_MacAddressMode : list N := [0x00; 0x01; 0x02]. (* uci_packets.pdl:404 *)
Definition VALUES_HoppingMode : list N := [0x00; 0x01]. (* uci_packets.pdl:414 *)
Definition VALUES_BprfPhrDataRate : list N := [0x00; 0x01]. (* uci_packets.pdl:427 *)
Definition VALUES_StsLength : list N := [0x00; 0x01; 0x02]. (* uci_packets.pdl:432 *)
Definition VALUES_SessionDataTransferStatusNtfConfig : list N := [0x00; 0x01]. (* uci_packets.pdl:448 *)

Definition MAC_MODE_0 : N := 0x00. (* uci_packets.pdl MacAddressMode *)
Definition MAC_MODE_1 : N := 0x01.
Definition MAC_MODE_2 : N := 0x02.

(** app_config.rs:168-170 [try_parse]: exactly one byte, a declared value. *)
Definition try_parse (valid : list N) (value : bytes) : option N :=
  match value with
  | [b] => if existsb (N.eqb b) valid then Some b else None
  | _ => None
  end.

(** app_config.rs:172-186 [try_parse_u8 .. try_parse_u64]: exactly [k] bytes. *)
Definition try_parse_uint (k : nat) (value : bytes) : option N :=
  if Nat.eqb (length value) k then Some (le_nat value) else None.

(** [<[u8; k]>::try_from(value)] *)
Definition try_array (k : nat) (value : bytes) : option bytes :=
  if Nat.eqb (length value) k then Some value else None.

(** [self.field = parse(value)?]: assign on success ([true]: [Ok]), leave
    the configuration untouched and return [Err] ([false]) otherwise. *)
Definition assign {A} (c : app_config) (set : A -> app_config -> app_config)
    (parsed : option A) : outcome (app_config * bool) :=
  match parsed with
  | Some v => Ret (set v c, true)
  | None => Ret (c, false)
  end.

(** app_config.rs:167-363 [AppConfig::set]. The result is the configuration
    after the call and whether it returned [Ok]. *)
Definition app_config_set (c : app_config) (id : tlv_id) (value : bytes)
    : outcome (app_config * bool) :=
  match id with
  | T_DEVICE_TYPE => assign c set_device_type (Some <$> try_parse VALUES_DeviceType value) (* :189 *)
  | T_RANGING_ROUND_USAGE => assign c set_ranging_round_usage (Some <$> try_parse VALUES_RangingRoundUsage value) (* :190 *)
  | T_STS_CONFIG => assign c set_sts_config (try_parse VALUES_StsConfig value) (* :193 *)
  | T_MULTI_NODE_MODE => assign c set_multi_node_mode (Some <$> try_parse VALUES_MultiNodeMode value) (* :194 *)
  | T_CHANNEL_NUMBER => assign c set_channel_number (try_parse VALUES_ChannelNumber value) (* :195 *)
  | T_NUMBER_OF_CONTROLEES => assign c set_number_of_controlees (try_parse_uint 1 value) (* :196 *)
  | T_DEVICE_MAC_ADDRESS => (* :199 *)
      if mac_address_mode c =? MAC_MODE_0 then
        assign c set_device_mac_address ((fun l => Some (MShort l)) <$> try_array 2 value)
      else if mac_address_mode c =? MAC_MODE_1 then Crash MacAddressMode1
      else assign c set_device_mac_address ((fun l => Some (MExtended l)) <$> try_array 8 value)
  | T_DST_MAC_ADDRESS => (* :206 *)
      if mac_address_mode c =? MAC_MODE_1 then Crash MacAddressMode1
      else
        let mac_address_size := if mac_address_mode c =? MAC_MODE_0 then 2%nat else 8%nat in
        if negb (Nat.eqb (length value) (N.to_nat (number_of_controlees c) * mac_address_size))
        then Ret (c, false)
        else
          Ret (set_dst_mac_address
                 (map (fun l => if mac_address_mode c =? MAC_MODE_0 then MShort l else MExtended l)
                      (chunks mac_address_size value)) c, true)
  | T_SLOT_DURATION => assign c set_slot_duration (try_parse_uint 2 value) (* :232 *)
  | T_RANGING_DURATION => assign c set_ranging_duration (try_parse_uint 4 value) (* :233 *)
  | T_STS_INDEX => assign c set_sts_index (try_parse_uint 4 value) (* :234 *)
  | T_MAC_FCS_TYPE => assign c set_mac_fcs_type (try_parse VALUES_MacFcsType value) (* :235 *)
  | T_RANGING_ROUND_CONTROL => assign c set_ranging_round_control (try_parse_uint 1 value) (* :236 *)
  | T_AOA_RESULT_REQ => assign c set_aoa_result_req (try_parse VALUES_AoaResultReq value) (* :239 *)
  | T_SESSION_INFO_NTF_CONFIG => assign c set_session_info_ntf_config (try_parse VALUES_SessionInfoNtfConfig value) (* :240 *)
  | T_NEAR_PROXIMITY_CONFIG => assign c set_near_proximity_config (try_parse_uint 2 value) (* :243 *)
  | T_FAR_PROXIMITY_CONFIG => assign c set_far_proximity_config (try_parse_uint 2 value) (* :246 *)
  | T_DEVICE_ROLE => assign c set_device_role (Some <$> try_parse VALUES_DeviceRole value) (* :249 *)
  | T_RFRAME_CONFIG => assign c set_rframe_config (try_parse VALUES_RframeConfig value) (* :250 *)
  | T_RSSI_REPORTING => assign c set_rssi_reporting (try_parse VALUES_RssiReporting value) (* :251 *)
  | T_PREAMBLE_CODE_INDEX => assign c set_preamble_code_index (try_parse_uint 1 value) (* :252 *)
  | T_SFD_ID => assign c set_sfd_id (try_parse_uint 1 value) (* :255 *)
  | T_PSDU_DATA_RATE => assign c set_psdu_data_rate (try_parse VALUES_PsduDataRate value) (* :256 *)
  | T_PREAMBLE_DURATION => assign c set_preamble_duration (try_parse VALUES_PreambleDuration value) (* :257 *)
  | T_LINK_LAYER_MODE => assign c set_link_layer_mode (try_parse VALUES_LinkLayerMode value) (* :258 *)
  | T_DATA_REPETITION_COUNT => assign c set_data_repetition_count (try_parse_uint 1 value) (* :259 *)
  | T_RANGING_TIME_STRUCT => assign c set_ranging_time_struct (try_parse VALUES_RangingTimeStruct value) (* :262 *)
  | T_SLOTS_PER_RR => assign c set_slots_per_rr (try_parse_uint 1 value) (* :265 *)
  | T_AOA_BOUND_CONFIG => assign c set_aoa_bound_config (* :266 *)
      (if Nat.eqb (length value) 8 then Some (map le_nat (chunks 2 value)) else None)
  | T_PRF_MODE => assign c set_prf_mode (try_parse VALUES_PrfMode value) (* :281 *)
  | T_CAP_SIZE_RANGE => assign c set_cap_size_range (try_array 2 value) (* :282 *)
  | T_TX_JITTER_WINDOW_SIZE => assign c set_tx_jitter_window_size (try_parse_uint 1 value) (* :283 *)
  | T_SCHEDULE_MODE => assign c set_schedule_mode (Some <$> try_parse VALUES_ScheduleMode value) (* :286 *)
  | T_KEY_ROTATION => assign c set_key_rotation (try_parse VALUES_KeyRotation value) (* :287 *)
  | T_KEY_ROTATION_RATE => assign c set_key_rotation_rate (try_parse_uint 1 value) (* :288 *)
  | T_SESSION_PRIORITY => assign c set_session_priority (try_parse_uint 1 value) (* :289 *)
  | T_MAC_ADDRESS_MODE => assign c set_mac_address_mode (try_parse VALUES_MacAddressMode value) (* :290 *)
  | T_VENDOR_ID => assign c set_vendor_id (try_parse_uint 2 value) (* :291 *)
  | T_STATIC_STS_IV => assign c set_static_sts_iv (try_array 6 value) (* :292 *)
  | T_NUMBER_OF_STS_SEGMENTS => assign c set_number_of_sts_segments (try_parse_uint 1 value) (* :293 *)
  | T_MAX_RR_RETRY => assign c set_max_rr_retry (try_parse_uint 2 value) (* :296 *)
  | T_UWB_INITIATION_TIME => assign c set_uwb_initiation_time (* :297, 4 bytes (UCI 1.0) or 8 *)
      (if Nat.eqb (length value) 4 then try_parse_uint 4 value
       else try_parse_uint 8 value)
  | T_HOPPING_MODE => assign c set_hopping_mode (try_parse VALUES_HoppingMode value) (* :305 *)
  | T_BLOCK_STRIDE_LENGTH => assign c set_block_stride_length (try_parse_uint 1 value) (* :306 *)
  | T_RESULT_REPORT_CONFIG => assign c set_result_report_config (try_parse_uint 1 value) (* :309 *)
  | T_IN_BAND_TERMINATION_ATTEMPT_COUNT => assign c set_in_band_termination_attempt_count (try_parse_uint 1 value) (* :312 *)
  | T_SUB_SESSION_ID => assign c set_sub_session_id (try_parse_uint 4 value) (* :315 *)
  | T_BPRF_PHR_DATA_RATE => assign c set_bprf_phr_data_rate (try_parse VALUES_BprfPhrDataRate value) (* :316 *)
  | T_MAX_NUMBER_OF_MEASUREMENTS => assign c set_max_number_of_measurements (try_parse_uint 2 value) (* :317 *)
  | T_STS_LENGTH => assign c set_sts_length (try_parse VALUES_StsLength value) (* :320 *)
  | T_MIN_FRAMES_PER_RR => assign c set_min_frames_per_rr (try_parse_uint 1 value) (* :321 *)
  | T_MTU_SIZE => assign c set_mtu_size (try_parse_uint 2 value) (* :322 *)
  | T_INTER_FRAME_INTERVAL => assign c set_inter_frame_interval (try_parse_uint 1 value) (* :323 *)
  | T_SESSION_KEY => assign c set_session_key (Some value) (* :326 *)
  | T_SUB_SESSION_KEY => assign c set_sub_session_key (* :327 *)
      (if Nat.eqb (length value) 16 then Some (SubKeyShort value)
       else if Nat.eqb (length value) 32 then Some (SubKeyExtended value)
       else None)
  | T_SESSION_DATA_TRANSFER_STATUS_NTF_CONFIG => assign c set_session_data_transfer_status_ntf_config (try_parse VALUES_SessionDataTransferStatusNtfConfig value) (* :334 *)
  | T_SESSION_TIME_BASE => assign c set_session_time_base (try_array 9 value) (* :337 *)
  | T_APPLICATION_DATA_ENDPOINT => assign c set_application_data_endpoint (try_parse_uint 1 value) (* :338 *)
  | T_OTHER _ => Ret (c, false) (* :342-360 unsupported *)
  end.

(** app_config.rs:367-497 [AppConfig::get]; [None] is [Err]. *)
Definition app_config_get (c : app_config) (id : tlv_id) : option bytes :=
  match id with
  | T_DEVICE_TYPE => (fun v => [v]) <$> device_type c (* :369 *)
  | T_RANGING_ROUND_USAGE => (fun v => [v]) <$> ranging_round_usage c (* :373 *)
  | T_STS_CONFIG => Some [sts_config c] (* :377 *)
  | T_MULTI_NODE_MODE => (fun v => [v]) <$> multi_node_mode c (* :378 *)
  | T_CHANNEL_NUMBER => Some [channel_number c] (* :382 *)
  | T_NUMBER_OF_CONTROLEES => Some [number_of_controlees c] (* :383 *)
  | T_DEVICE_MAC_ADDRESS => mac_to_vec <$> device_mac_address c (* :384 *)
  | T_DST_MAC_ADDRESS => Some (concat (map mac_to_vec (dst_mac_address c))) (* :388 *)
  | T_SLOT_DURATION => Some (le_bytes 2 (slot_duration c)) (* :393 *)
  | T_RANGING_DURATION => Some (le_bytes 4 (ranging_duration c)) (* :394 *)
  | T_STS_INDEX => Some (le_bytes 4 (sts_index c)) (* :397 *)
  | T_MAC_FCS_TYPE => Some [mac_fcs_type c] (* :398 *)
  | T_RANGING_ROUND_CONTROL => Some [ranging_round_control c] (* :399 *)
  | T_AOA_RESULT_REQ => Some [aoa_result_req c] (* :400 *)
  | T_SESSION_INFO_NTF_CONFIG => Some [session_info_ntf_config c] (* :401 *)
  | T_NEAR_PROXIMITY_CONFIG => Some (le_bytes 2 (near_proximity_config c)) (* :404 *)
  | T_FAR_PROXIMITY_CONFIG => Some (le_bytes 2 (far_proximity_config c)) (* :407 *)
  | T_DEVICE_ROLE => (fun v => [v]) <$> device_role c (* :410 *)
  | T_RFRAME_CONFIG => Some [rframe_config c] (* :414 *)
  | T_RSSI_REPORTING => Some [rssi_reporting c] (* :415 *)
  | T_PREAMBLE_CODE_INDEX => Some [preamble_code_index c] (* :416 *)
  | T_SFD_ID => Some [sfd_id c] (* :417 *)
  | T_PSDU_DATA_RATE => Some [psdu_data_rate c] (* :418 *)
  | T_PREAMBLE_DURATION => Some [preamble_duration c] (* :419 *)
  | T_LINK_LAYER_MODE => Some [link_layer_mode c] (* :420 *)
  | T_DATA_REPETITION_COUNT => Some [data_repetition_count c] (* :421 *)
  | T_RANGING_TIME_STRUCT => Some [ranging_time_struct c] (* :422 *)
  | T_SLOTS_PER_RR => Some [slots_per_rr c] (* :423 *)
  | T_AOA_BOUND_CONFIG => Some (concat (map (le_bytes 2) (aoa_bound_config c))) (* :424 *)
  | T_PRF_MODE => Some [prf_mode c] (* :430 *)
  | T_CAP_SIZE_RANGE => Some (cap_size_range c) (* :431 *)
  | T_TX_JITTER_WINDOW_SIZE => Some [tx_jitter_window_size c] (* :432 *)
  | T_SCHEDULE_MODE => (fun v => [v]) <$> schedule_mode c (* :433 *)
  | T_KEY_ROTATION => Some [key_rotation c] (* :437 *)
  | T_KEY_ROTATION_RATE => Some [key_rotation_rate c] (* :438 *)
  | T_SESSION_PRIORITY => Some [session_priority c] (* :439 *)
  | T_MAC_ADDRESS_MODE => Some [mac_address_mode c] (* :440 *)
  | T_VENDOR_ID => Some (le_bytes 2 (vendor_id c)) (* :441 *)
  | T_STATIC_STS_IV => Some (static_sts_iv c) (* :442 *)
  | T_NUMBER_OF_STS_SEGMENTS => Some [number_of_sts_segments c] (* :443 *)
  | T_MAX_RR_RETRY => Some (le_bytes 2 (max_rr_retry c)) (* :444 *)
  | T_UWB_INITIATION_TIME => Some (le_bytes 8 (uwb_initiation_time c)) (* :445 *)
  | T_HOPPING_MODE => Some [hopping_mode c] (* :448 *)
  | T_BLOCK_STRIDE_LENGTH => Some [block_stride_length c] (* :449 *)
  | T_RESULT_REPORT_CONFIG => Some [result_report_config c] (* :450 *)
  | T_IN_BAND_TERMINATION_ATTEMPT_COUNT => Some [in_band_termination_attempt_count c] (* :451 *)
  | T_SUB_SESSION_ID => Some (le_bytes 4 (sub_session_id c)) (* :454 *)
  | T_BPRF_PHR_DATA_RATE => Some [bprf_phr_data_rate c] (* :455 *)
  | T_MAX_NUMBER_OF_MEASUREMENTS => Some (le_bytes 2 (max_number_of_measurements c)) (* :456 *)
  | T_STS_LENGTH => Some [sts_length c] (* :459 *)
  | T_MIN_FRAMES_PER_RR => Some [min_frames_per_rr c] (* :460 *)
  | T_MTU_SIZE => Some (le_bytes 2 (mtu_size c)) (* :461 *)
  | T_INTER_FRAME_INTERVAL => Some [inter_frame_interval c] (* :462 *)
  | T_SESSION_KEY => Some (session_key c) (* :463 *)
  | T_SUB_SESSION_KEY => Some (match sub_session_key_ c with
      | SubKeyNone => []
      | SubKeyShort k => k
      | SubKeyExtended k => k
      end) (* :464 *)
  | T_SESSION_DATA_TRANSFER_STATUS_NTF_CONFIG => Some [session_data_transfer_status_ntf_config c] (* :469 *)
  | T_SESSION_TIME_BASE => Some (session_time_base c) (* :472 *)
  | T_APPLICATION_DATA_ENDPOINT => Some [application_data_endpoint c] (* :473 *)
  | T_OTHER _ => None (* :477-495 unsupported *)
  end.

Definition ROLE_RESPONDER : N := 0x00. (* uci_packets.pdl DeviceRole *)
Definition ROLE_INITIATOR : N := 0x01.

(** app_config.rs:499-508 [is_compatible_for_ranging]: the [unwrap]s are evaluated
    left to right, only when the previous conjuncts hold. *)
Definition is_compatible_for_ranging (c peer : app_config) : outcome bool :=
  if bool_decide (device_role c = device_role peer) then Ret false
  else if bool_decide (device_type c = device_type peer) then Ret false
  else
    match device_mac_address c with
    | None => Crash RangingMacUnset
    | Some m =>
        if negb (bool_decide (m ∈ dst_mac_address peer)) then Ret false
        else
          match device_mac_address peer with
          | None => Crash RangingMacUnset
          | Some m' => Ret (bool_decide (m' ∈ dst_mac_address c))
          end
    end.

(** app_config.rs:510-512, 514-516. *)
Definition cfg_can_start_data_transfer (c : app_config) : bool :=
  bool_decide (device_role c = Some ROLE_INITIATOR).
Definition cfg_can_receive_data_transfer (c : app_config) : bool :=
  bool_decide (device_role c = Some ROLE_RESPONDER).
