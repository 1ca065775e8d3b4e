{
 "claims": [
  {
   "property": "C01",
   "status": "proved",
   "theorems": [
    "C01_heartbeat_roundtrip"
   ],
   "note": "Packet.v; all previous packet contents, all times, both builds. Arithmetic on bytes."
  },
  {
   "property": "C02",
   "status": "proved",
   "theorems": [
    "C02_set_effect_roundtrip"
   ],
   "note": "Packet.v; all previous contents, all byte triples, both builds."
  },
  {
   "property": "C03",
   "status": "proved",
   "theorems": [
    "C03_control_roundtrip"
   ],
   "note": "Packet.v; all previous contents, all values, both builds."
  },
  {
   "property": "C04",
   "status": "proved",
   "theorems": [
    "C04_host_readers_guarded",
    "C04_device_readers_total",
    "C04_device_control_misread"
   ],
   "note": "Packet.v; equivalence on the host build, totality and the exact misreading on the device build."
  },
  {
   "property": "C05",
   "status": "proved",
   "theorems": [
    "C05_equality_meaning",
    "C05_equality_laws"
   ],
   "note": "Packet.v; equality characterised, then its laws."
  },
  {
   "property": "C06",
   "status": "proved",
   "theorems": [
    "C06_frame_roundtrip",
    "C06_length_lost_refuted"
   ],
   "note": "HwRadio.v; round trip over all packets and receiving buffers; the lost length is refuted with a witness."
  },
  {
   "property": "C07",
   "status": "proved",
   "theorems": [
    "C07_empty_packets_never_delivered"
   ],
   "note": "HwRadio.v; all frames of at most 3 bytes, hence all packets of length 0."
  },
  {
   "property": "C08",
   "status": "proved",
   "theorems": [
    "C08_relay_dies_after_one_hop",
    "C08_relays_and_claims_lost",
    "C08_learned_effect_not_passed_on",
    "C08_own_news_arrives"
   ],
   "note": "HwRadio.v for single packets, Rsm.v over all histories for whole nodes."
  },
  {
   "property": "C09",
   "status": "proved",
   "theorems": [
    "C09_send_bounds",
    "C09_receive_bounds"
   ],
   "note": "HwRadio.v; exact conditions for undefined behaviour (equivalences)."
  },
  {
   "property": "C10",
   "status": "proved",
   "theorems": [
    "C10_accept_iff_not_recent",
    "C10_node_accepts_iff_not_recent"
   ],
   "note": "NetMgr.v; the circular buffer refines 'last five ids transmitted', invariant over histories; lifted to whole nodes."
  },
  {
   "property": "C11",
   "status": "proved",
   "theorems": [
    "C11_relay_exact"
   ],
   "note": "NetMgr.v; one call, all states."
  },
  {
   "property": "C12",
   "status": "proved",
   "theorems": [
    "C12_own_echo"
   ],
   "note": "NetMgr.v; over histories, on top of C10."
  },
  {
   "property": "C13",
   "status": "proved",
   "theorems": [
    "C13_id_zero"
   ],
   "note": "NetMgr.v; over histories, on top of C10."
  },
  {
   "property": "C14",
   "status": "proved",
   "theorems": [
    "C14_originated_ids",
    "C14_host_range_refuted"
   ],
   "note": "NetMgr.v; all random draws; the documented range refuted for the host build."
  },
  {
   "property": "C15",
   "status": "proved",
   "theorems": [
    "C15_flood_terminates"
   ],
   "note": "Flood.v; any number of nodes, arbitrary medium; invariant over network runs."
  },
  {
   "property": "C16",
   "status": "proved",
   "theorems": [
    "C16_storm"
   ],
   "note": "Flood.v; a schedule constructed by induction for every bound."
  },
  {
   "property": "C17",
   "status": "proved",
   "theorems": [
    "C17_takeover_only_after_silence"
   ],
   "note": "Rsm.v; all histories before the 2^32 ms wrap; timer invariant against the history."
  },
  {
   "property": "C18",
   "status": "proved",
   "theorems": [
    "C18_silent_network_gets_a_master"
   ],
   "note": "Rsm.v; as C17, for the state reached by any history."
  },
  {
   "property": "C19",
   "status": "proved",
   "theorems": [
    "C19_slave_with_contact_stays_slave"
   ],
   "note": "Rsm.v; all histories before the wrap, from C17."
  },
  {
   "property": "C20",
   "status": "proved",
   "theorems": [
    "C20_heartbeats_apart",
    "C20_heartbeats_carry_network_time",
    "C20_heartbeat_due_is_sent"
   ],
   "note": "Rsm.v; all histories before the wrap."
  },
  {
   "property": "C21",
   "status": "proved",
   "theorems": [
    "C21_accepted_packet_hides_timers",
    "C21_traffic_starves_timers",
    "C21_starvation_possible"
   ],
   "note": "Rsm.v; all histories; induction on the number of ticks, and a constructed run for every length."
  },
  {
   "property": "C22",
   "status": "proved",
   "theorems": [
    "C22_election",
    "C22_election_bounds"
   ],
   "note": "Rsm.v; all states reached, all draws."
  },
  {
   "property": "C23",
   "status": "proved",
   "theorems": [
    "C23_role_changes"
   ],
   "note": "Rsm.v; all steps of all histories."
  },
  {
   "property": "C24",
   "status": "proved",
   "theorems": [
    "C24_unknown_types_inert",
    "C24_unknown_types_never_fail"
   ],
   "note": "Rsm.v; all states; no-failure on both builds."
  },
  {
   "property": "C25",
   "status": "proved",
   "theorems": [
    "C25_network_time_follows_heartbeat"
   ],
   "note": "Rsm.v; all histories, any number of clock wraps."
  },
  {
   "property": "C26",
   "status": "proved",
   "theorems": [
    "C26_nodes_agree_for_ever",
    "C26_lag_is_latency"
   ],
   "note": "PropNetTime.v; any number of nodes and offsets; invariant over global histories."
  },
  {
   "property": "C27",
   "status": "proved",
   "theorems": [
    "C27_set_effect_adopted",
    "C27_control_adopted",
    "C27_nothing_else_changes_the_effect"
   ],
   "note": "Rsm.v; all reached states, plus the converse (nothing else changes the effect)."
  },
  {
   "property": "C28",
   "status": "proved",
   "theorems": [
    "C28_index_agrees_with_packet",
    "C28_powerup",
    "C28_fresh_master_announces_what_it_does_not_show_refuted"
   ],
   "note": "Rsm.v; all histories; the power-up disagreement refuted by a witness."
  },
  {
   "property": "C29",
   "status": "proved",
   "theorems": [
    "C29_own_changes_in_range"
   ],
   "note": "Rsm.v; all histories."
  },
  {
   "property": "C30",
   "status": "proved",
   "theorems": [
    "C30_hold_time_honoured"
   ],
   "note": "Rsm.v; all histories before the wrap."
  },
  {
   "property": "C31",
   "status": "proved",
   "theorems": [
    "C31_zero_hold_stops_changes",
    "C31_own_changes_every_minute"
   ],
   "note": "Rsm.v; all histories before the wrap; the positive half (own changes every minute) included."
  },
  {
   "property": "C32",
   "status": "proved",
   "theorems": [
    "C32_rebroadcast_is_current",
    "C32_rebroadcasts_apart",
    "C32_rebroadcast_due_is_sent"
   ],
   "note": "Rsm.v; all histories before the wrap."
  },
  {
   "property": "C33",
   "status": "proved",
   "theorems": [
    "C33_cadence_survives_change_of_master",
    "C33_exactly_a_minute_stops_changes",
    "C33_moving_clock",
    "C33_race_stops_changes_refuted"
   ],
   "note": "Rsm.v for a clock that stands still during a call, BeginMasterRace.v for any moving clock; the race refutes the documented behaviour by a witness."
  },
  {
   "property": "C34",
   "status": "proved",
   "theorems": [
    "C34_repetition_keeps_cadence",
    "C34_repetition_of_high_effects_resets_cadence",
    "C34_high_effects_refuted"
   ],
   "note": "Rsm.v; both halves proved, high effect numbers refuted."
  },
  {
   "property": "C35",
   "status": "proved",
   "theorems": [
    "C35_heartbeats_stop",
    "C35_takeover_never",
    "C35_takeover_at_once",
    "C35_heartbeats_at_once"
   ],
   "note": "Rsm.v; universally quantified failures of the timers at the wrap, in unbounded real time."
  },
  {
   "property": "C36",
   "status": "proved",
   "theorems": [
    "C36_set_effect_adopts_and_sends",
    "C36_set_effect_holds",
    "C36_slave_hold_refuted"
   ],
   "note": "Rsm.v; the hold of a slave's own SetEffect is refuted."
  },
  {
   "property": "C37",
   "status": "proved",
   "theorems": [
    "C37_control_packet_aborts_on_host",
    "C37_control_packet_misread_on_device"
   ],
   "note": "Rsm.v; all control packets, both builds."
  },
  {
   "property": "C38",
   "status": "proved",
   "theorems": [
    "C38_device_never_fails",
    "C38_host_abort_iff",
    "C38_host_undefined_only_with_zero_counts"
   ],
   "note": "Rsm.v; all histories; exact conditions on the host build."
  },
  {
   "property": "C39",
   "status": "proved",
   "theorems": [
    "C39_slaves_are_quiet"
   ],
   "note": "Rsm.v; all steps of all histories."
  },
  {
   "property": "C40",
   "status": "proved",
   "theorems": [
    "C40_bounded_network_keeps_its_master"
   ],
   "note": "PropPair.v; two joint histories before the wrap; composition of C20 and C19."
  },
  {
   "property": "C41",
   "status": "proved",
   "theorems": [
    "C41_outcomes",
    "C41_election_leaves_no_master_refuted",
    "C41_election_leaves_two_masters_refuted",
    "C41_claims_demote_both_refuted"
   ],
   "note": "PropPair.v; the outcome as a function of the draws for all states, and concrete elections."
  },
  {
   "property": "C42",
   "status": "proved",
   "theorems": [
    "C42_tick_is_one_then_two_radio_ticks",
    "C42_count"
   ],
   "note": "PropTick.v; all histories of Tick."
  },
  {
   "property": "C43",
   "status": "proved",
   "theorems": [
    "C43_mirror_is_distance_to_nearer_end",
    "C43_mirroring",
    "C43_index_reduced",
    "C43_empty_strip"
   ],
   "note": "Maths.v; all lengths and indices."
  },
  {
   "property": "C44",
   "status": "proved",
   "theorems": [
    "C44_angle",
    "C44_radius"
   ],
   "note": "Maths.v; all lengths and indices."
  },
  {
   "property": "C45",
   "status": "proved",
   "theorems": [
    "C45_range_and_zero",
    "C45_monotone",
    "C45_antitone_in_threshold",
    "C45_no_threshold"
   ],
   "note": "Maths.v; every FastLED meeting the contract."
  },
  {
   "property": "C46",
   "status": "proved",
   "theorems": [
    "C46_lookup_wraps",
    "C46_empty_palette"
   ],
   "note": "Palette.v; all palettes."
  },
  {
   "property": "C47",
   "status": "proved",
   "theorems": [
    "C47_gradient_hits_colours",
    "C47_every_colour_shown",
    "C47_small_palettes",
    "C47_too_large_palettes"
   ],
   "note": "Palette.v; all palettes of the given sizes, every FastLED meeting the contract; exact trap conditions for other sizes."
  },
  {
   "property": "C48",
   "status": "proved",
   "theorems": [
    "C48_between_neighbours",
    "C48_monotone",
    "C48_linear"
   ],
   "note": "Palette.v; all positions; linear error bound included."
  },
  {
   "property": "C49",
   "status": "proved",
   "theorems": [
    "C49_other_way_round",
    "C49_monotone"
   ],
   "note": "Palette.v; all positions."
  },
  {
   "property": "C50",
   "status": "proved",
   "theorems": [
    "C50_wrap_closes_refuted",
    "C50_closes_when_dividing",
    "C50_closes_up_to_hue_zero",
    "C50_eighteen_colours_refuted"
   ],
   "note": "Palette.v; documented claim refuted; exact repair proved for all palettes."
  },
  {
   "property": "C51",
   "status": "proved",
   "theorems": [
    "C51_layout",
    "C51_lookup_total",
    "C51_too_many"
   ],
   "note": "LedMgr.v; all registration sequences by induction; the total of 256 as exact failure."
  },
  {
   "property": "C52",
   "status": "proved",
   "theorems": [
    "C52_unique_numbers"
   ],
   "note": "LedMgr.v; all registration sequences."
  },
  {
   "property": "C53",
   "status": "proved",
   "theorems": [
    "C53_freed_exactly_once",
    "C53_no_double_free_no_leak",
    "C53_clear_effects"
   ],
   "note": "LedMgr.v; all registration sequences."
  },
  {
   "property": "C54",
   "status": "proved",
   "theorems": [
    "C54_flag_set_iff_given",
    "C54_led_count"
   ],
   "note": "Device.v; all flag lists."
  },
  {
   "property": "C55",
   "status": "proved",
   "theorems": [
    "C55_every_led_right",
    "C55_nothing_skipped"
   ],
   "note": "LedMgr.v; all devices up to 255 LEDs, all colour functions."
  },
  {
   "property": "C56",
   "status": "proved",
   "theorems": [
    "C56_no_bad_write_iff_at_most_255",
    "C56_out_of_bounds",
    "C56_reported_count"
   ],
   "note": "LedMgr.v; equivalence over all devices."
  },
  {
   "property": "C57",
   "status": "proved",
   "theorems": [
    "C57_invalid_palette_undefined",
    "C57_invalid_palette_undefined_sometimes",
    "C57_otherwise_harmless",
    "C57_picture_undefined",
    "C57_accepted_from_the_radio"
   ],
   "note": "Effects.v, Show.v, Rsm.v; which effects trap, and acceptance from the radio."
  },
  {
   "property": "C58",
   "status": "proved",
   "theorems": [
    "C58_effects_never_trap",
    "C58_oversized_shift",
    "C58_whole_picture"
   ],
   "note": "Effects.v; all effects of the table, all valid inputs, every FastLED meeting the contract."
  },
  {
   "property": "C59",
   "status": "proved",
   "theorems": [
    "C59_same_picture",
    "C59_nodes_in_sync",
    "C59_slave_follows_master"
   ],
   "note": "Show.v, Rsm.v; composition with C25 and C27."
  },
  {
   "property": "C60",
   "status": "proved",
   "theorems": [
    "C60_control_colour_everywhere",
    "C60_dark_everywhere",
    "C60_colour_cycle_uniform"
   ],
   "note": "Effects.v, Show.v."
  },
  {
   "property": "C61",
   "status": "proved",
   "theorems": [
    "C61_offsets_are_valid",
    "C61_together_in_the_middle_phase",
    "C61_offset_fades_in_and_out",
    "C61_fireflies_on_the_controller"
   ],
   "note": "Effects.v; all offsets and times."
  },
  {
   "property": "C62",
   "status": "proved",
   "theorems": [
    "C62_spark_tail",
    "C62_spark_tail_circular",
    "C62_at_most_eight",
    "C62_head_moves_smoothly",
    "C62_head_jumps_refuted"
   ],
   "note": "Effects.v; all strips and times; the jump at the 32-bit product is refuted."
  },
  {
   "property": "C63",
   "status": "proved",
   "theorems": [
    "C63_pride_stripes",
    "C63_smooth_at_the_seam_refuted"
   ],
   "note": "Effects.v; all times; the seam refuted."
  },
  {
   "property": "C64",
   "status": "proved",
   "theorems": [
    "C64_own_changes_are_ordinary_and_valid",
    "C64_every_ordinary_effect_reachable"
   ],
   "note": "Show.v, Rsm.v; all histories."
  },
  {
   "property": "C65",
   "status": "proved",
   "theorems": [
    "C65_send_what_was_selected",
    "C65_nothing_else_sends",
    "C65_back_undoes_forward",
    "C65_on_the_air"
   ],
   "note": "Controller.v; all press histories since power-up."
  },
  {
   "property": "C66",
   "status": "proved",
   "theorems": [
    "C66_display_map",
    "C66_one_to_one"
   ],
   "note": "Controller.v; all positions, all previous LED contents."
  },
  {
   "property": "C67",
   "status": "proved",
   "theorems": [
    "C67_off",
    "C67_on",
    "C67_between_keeps_mode",
    "C67_volts",
    "C67_controller"
   ],
   "note": "Battery.v; all reading sequences; IEEE single precision as in Coq's SpecFloat."
  },
  {
   "property": "C68",
   "status": "proved",
   "theorems": [
    "C68_never_a_partial_record",
    "C68_repaired_by_next_start",
    "C68_strips_are_not_stored_refuted"
   ],
   "note": "Flash.v; all crash points and old contents; stored pointers refuted as a device description."
  },
  {
   "property": "C69",
   "status": "proved",
   "theorems": [
    "C69_animations_repeat",
    "C69_no_seam_when_time_wraps",
    "C69_swinging_lights_jump_refuted"
   ],
   "note": "Effects.v; all strips, LEDs, times."
  },
  {
   "property": "C70",
   "status": "proved",
   "theorems": [
    "C70_mirrored_strips_are_symmetric",
    "C70_circular_fire_is_not_refuted"
   ],
   "note": "Effects.v; all strips, LEDs, times."
  },
  {
   "property": "C71",
   "status": "proved",
   "theorems": [
    "C71_rorschach_symmetric"
   ],
   "note": "Effects.v; all strips, LEDs, times."
  },
  {
   "property": "C72",
   "status": "proved",
   "theorems": [
    "C72_stop_light_sequence",
    "C72_one_lamp_at_a_time",
    "C72_stop_light_on_the_controller"
   ],
   "note": "Effects.v; all strips, LEDs, times."
  },
  {
   "property": "C73",
   "status": "proved",
   "theorems": [
    "C73_blink_one_third"
   ],
   "note": "Effects.v; all strips, LEDs, times."
  },
  {
   "property": "C74",
   "status": "proved",
   "theorems": [
    "C74_palette_display"
   ],
   "note": "Effects.v; all strips, LEDs, times."
  },
  {
   "property": "C75",
   "status": "proved",
   "theorems": [
    "C75_colour_mode_shows_the_choices",
    "C75_colour_mode_sends_the_colour_beside_the_button",
    "C75_colour_mode_sends_only_on_a_press"
   ],
   "note": "Controller.v; all states."
  },
  {
   "property": "C76",
   "status": "proved",
   "theorems": [
    "C76_stale_at_power_up",
    "C76_stale_after_palette_mode"
   ],
   "note": "Controller.v; finding, proved for all selections."
  },
  {
   "property": "C77",
   "status": "proved",
   "theorems": [
    "C77_palette_mode_sends",
    "C77_palette_mode_display",
    "C77_right_blocks_shifted_refuted"
   ],
   "note": "Controller.v; all states; the shifted blocks refuted."
  },
  {
   "property": "C78",
   "status": "proved",
   "theorems": [
    "C78_lamps",
    "C78_right_lamps_refuted"
   ],
   "note": "Controller.v; all states; right lamps refuted."
  },
  {
   "property": "C79",
   "status": "proved",
   "theorems": [
    "C79_never_traps",
    "C79_device_loop_never_fails"
   ],
   "note": "Controller.v; invariant over all histories of passes."
  },
  {
   "property": "C80",
   "status": "proved",
   "theorems": [
    "C80_preview"
   ],
   "note": "Controller.v; all states reached."
  },
  {
   "property": "C81",
   "status": "proved",
   "theorems": [
    "C81_charge_colour",
    "C81_overfull_looks_empty_refuted",
    "C81_board_led"
   ],
   "note": "Battery.v; all measured voltages; the fall back to red refuted."
  },
  {
   "property": "C82",
   "status": "proved",
   "theorems": [
    "C82_warning_light"
   ],
   "note": "Battery.v, Controller.v; all states."
  },
  {
   "property": "C83",
   "status": "proved",
   "theorems": [
    "C83_console_colour_on_air",
    "C83_change_sent_at_once",
    "C83_keep_alive"
   ],
   "note": "Dmx.v; all pass sequences."
  },
  {
   "property": "C84",
   "status": "proved",
   "theorems": [
    "C84_keep_alives_stop",
    "C84_last_second_floods"
   ],
   "note": "Dmx.v; finding, all continuations."
  },
  {
   "property": "C85",
   "status": "proved",
   "theorems": [
    "C85_ids_count_up",
    "C85_fresh_node_misses_only_the_first"
   ],
   "note": "Dmx.v, NetMgr.v; all pass sequences, any number of id wraps."
  },
  {
   "property": "C86",
   "status": "proved",
   "theorems": [
    "C86_fed_master_never_changes"
   ],
   "note": "Rsm.v; all histories before the wrap."
  },
  {
   "property": "C87",
   "status": "proved",
   "theorems": [
    "C87_startup_tests_every_led",
    "C87_startup_takes_a_few_seconds",
    "C87_startup_with_one_led",
    "C87_no_leds_divides_by_zero"
   ],
   "note": "Boot.v; all LED counts."
  },
  {
   "property": "C88",
   "status": "proved",
   "theorems": [
    "C88_runs_iff",
    "C88_fast_passes_never_reset",
    "C88_slow_pass_resets"
   ],
   "note": "Boot.v; all sequences of pass durations; equivalence."
  },
  {
   "property": "C89",
   "status": "proved",
   "theorems": [
    "C89_node_keeps_showing",
    "C89_header_devices_are_drawable",
    "C89_one_packet_stops_a_node"
   ],
   "note": "Node.v puts construction, start-up animation and main loop together; the last theorem shows why the palette hypothesis is needed."
  },
  {
   "property": "C90",
   "status": "proved",
   "theorems": [
    "C90_effects_have_an_origin"
   ],
   "note": "PropNetwork.v; induction over runs of the whole network; the medium may corrupt everything but type and content bytes."
  },
  {
   "property": "C91",
   "status": "proved",
   "theorems": [
    "C91_only_existing_palettes",
    "C91_every_picture_is_drawn"
   ],
   "note": "PropNetSafe.v; combines C90, C29 and the drawing theorem behind C89."
  },
  {
   "property": "C92",
   "status": "proved",
   "theorems": [
    "C92_one_master_for_ever",
    "C92_late_echo_dethrones_refuted"
   ],
   "note": "PropOneMaster.v; induction over the run, using C10, C23, C39 and C40; the refuted theorem shows why the echo hypothesis is needed."
  },
  {
   "property": "C93",
   "status": "proved",
   "theorems": [
    "C93_master_keeps_announcing",
    "C93_newcomer_catches_up"
   ],
   "note": "PropCatchUp.v; uses C20, C27, C32. With the device radio the effect a master follows reaches others only if it is the master's own choice (C112)."
  },
  {
   "property": "C94",
   "status": "proved",
   "theorems": [
    "C94_noise_has_no_jumps",
    "C94_noise_is_gradual",
    "C94_noise_repeats",
    "C94_tolerance_of_the_test_refuted",
    "C94_fire_flickers_gradually",
    "C94_rorschach_fades_gradually"
   ],
   "note": "PropNoise.v; all points; assumes FastLED's lerp15by8 and ease8InOutApprox formulas, any random generator; the test's tolerance is refuted by a witness."
  },
  {
   "property": "C95",
   "status": "proved",
   "theorems": [
    "C95_everybody_in_step",
    "C95_from_then_on",
    "C95_one_animation"
   ],
   "note": "PropInStep.v; uses C40, C93, C20, C25, C39, C59. Assumes that no packet is under way when the run begins with a heartbeat of the master. Pictures are compared on devices, where the length field of packets is ignored."
  },
  {
   "property": "C96",
   "status": "proved",
   "theorems": [
    "C96_order_obeyed"
   ],
   "note": "PropOrder.v; uses C95, C23, C30. The order is a set-effect packet (control packets are misread by SetEffect, C37)."
  },
  {
   "property": "C97",
   "status": "proved",
   "theorems": [
    "C97_fancy_node_never_stops",
    "C97_board_led",
    "C97_radio_stands_still",
    "C97_return_takes_over",
    "C97_return_changes_effect"
   ],
   "note": "PropFancy.v; uses C67, C42, C18, C20, C33, C89. That the radio sleeps shows in the model as a first radio tick without a packet. Device from the header (flash: C68)."
  },
  {
   "property": "C98",
   "status": "proved",
   "theorems": [
    "C98_rainbow_picture",
    "C98_rainbow_moves",
    "C98_rainbow_repeats_along_the_strip",
    "C98_tiny_one_colour_stands_still",
    "C98_tiny_wave_refuted"
   ],
   "note": "PropMotion.v; gradient as described by C47-C50."
  },
  {
   "property": "C99",
   "status": "proved",
   "theorems": [
    "C99_colour_cycle_picture"
   ],
   "note": "PropMotion.v."
  },
  {
   "property": "C100",
   "status": "proved",
   "theorems": [
    "C100_contrast_bumps_picture",
    "C100_rainbow_bumps_picture",
    "C100_humps_move"
   ],
   "note": "PropMotion.v; the hump is FastLED's sin16 cut at zero."
  },
  {
   "property": "C101",
   "status": "proved",
   "theorems": [
    "C101_fire_colours",
    "C101_lightning_picture",
    "C101_rorschach_picture"
   ],
   "note": "PropMotion.v; FastLED's generator arbitrary; gradual change of the noise is C94."
  },
  {
   "property": "C102",
   "status": "proved",
   "theorems": [
    "C102_swinging_picture",
    "C102_dark_between_lights",
    "C102_bright_at_a_light"
   ],
   "note": "PropMotion.v."
  },
  {
   "property": "C103",
   "status": "proved",
   "theorems": [
    "C103_police_bars",
    "C103_police_on_the_controller",
    "C103_police_on_tiny_strips"
   ],
   "note": "PropMotion.v; the effect is not in the built-in table, so the theorem is about the effect itself."
  },
  {
   "property": "C104",
   "status": "proved",
   "theorems": [
    "C104_a_lonely_node_takes_over",
    "C104_a_network_starts",
    "C104_two_masters_at_start_refuted"
   ],
   "note": "PropStartUp.v; uses C17, C23, C39, C92; clocks below the 49-day wrap. Two masters: see C22, C41."
  },
  {
   "property": "C105",
   "status": "proved",
   "theorems": [
    "C105_from_power_up_to_one_animation"
   ],
   "note": "PropPowerUp.v; uses C104, C95, C27, C39."
  },
  {
   "property": "C106",
   "status": "proved",
   "theorems": [
    "C106_no_orders_no_starvation",
    "C106_from_power_up_to_one_animation"
   ],
   "note": "PropUnstarved.v; uses C104, C105; every accepted packet was originated by another node at most D ms before."
  },
  {
   "property": "C107",
   "status": "proved",
   "theorems": [
    "C107_reported_iff",
    "C107_one_at_a_time",
    "C107_held_is_reported_once"
   ],
   "note": "PropBench.v; the edge filter library is outside: its value and stability verdict are inputs."
  },
  {
   "property": "C108",
   "status": "proved",
   "theorems": [
    "C108_outbox",
    "C108_memory",
    "C108_nothing_to_read",
    "C108_inbox"
   ],
   "note": "PropBench.v; heap with live and dead objects; the test touches only pointers it was given."
  },
  {
   "property": "C109",
   "status": "proved",
   "theorems": [
    "C109_fail_over",
    "C109_taking_over_is_seamless"
   ],
   "note": "PropFailOver.v; start-up theorems C104-C106 generalised from new nodes to nodes with any past; the moment is the node's timer, described by the history only."
  },
  {
   "property": "C110",
   "status": "proved",
   "theorems": [
    "C110_masters_only_lose",
    "C110_rival_has_to_win_every_time",
    "C110_merged_network_is_one"
   ],
   "note": "PropMerge.v; uses C40, C22, C20, C93, C25. That m survives its own elections is a hypothesis: which master survives is chance, and possibly none does (C41; then C109 applies)."
  },
  {
   "property": "C111",
   "status": "proved",
   "theorems": [
    "C111_console_colour_on_every_node"
   ],
   "note": "PropConsole.v; uses C83, C86, C27, C60. That the roles stay (one master, the others slaves) is a hypothesis here; C92, C104-C106, C109 give it. The relays of the gateway's own packets carry no payload on devices (C06), so D is the direct way there."
  },
  {
   "property": "C112",
   "status": "proved",
   "theorems": [
    "C112_power_up_over_the_real_radio",
    "C112_newcomer_is_not_told"
   ],
   "note": "PropAir.v; derives the assumptions of C106 from assumptions about frames. Packets without payload need not arrive; it is assumed that no packet carries one of the last five ids its receiver transmitted."
  },
  {
   "property": "C113",
   "status": "proved",
   "theorems": [
    "C113_everybody_waits_equally_long",
    "C113_devices_switched_on_together_all_become_master",
    "C113_what_the_seed_decides"
   ],
   "note": "Seed.v, PropSeed.v. The C library generator is a parameter; the contracts of rand and randomSeed are stated in Seed.v. The example uses newlib's generator (wait 6933 ms)."
  },
  {
   "property": "C114",
   "status": "proved",
   "theorems": [
    "C114_every_effect_is_equally_likely",
    "C114_every_wait_is_equally_likely",
    "C114_odds_of_an_election",
    "C114_heartbeat_ids_are_equally_likely",
    "C114_an_election_is_a_coin"
   ],
   "note": "PropFair.v. A call depends on the numbers it draws and no others (local_step); probability is counting of raw numbers, no measure theory."
  },
  {
   "property": "C115",
   "status": "proved",
   "theorems": [
    "C115_stripes_have_the_colours_of_the_flag",
    "C115_the_flag_moves",
    "C115_all_colours_at_all_times",
    "C115_tiny_strips_take_turns"
   ],
   "note": "PropPicture.v; builds on C63, whose finding (the fade into red starts from green) stands."
  },
  {
   "property": "C116",
   "status": "proved",
   "theorems": [
    "C116_spark_picture",
    "C116_spark_on_a_circle",
    "C116_the_head_goes_round",
    "C116_there_and_back"
   ],
   "note": "PropPicture.v; builds on C62, which also has the jump when the product overflows."
  },
  {
   "property": "C117",
   "status": "proved",
   "theorems": [
    "C117_the_simulation_is_sound",
    "C117_one_round",
    "C117_the_simulation_is_a_run",
    "C117_injected_packets_reach_nobody",
    "C117_resetMaster_resets_node_0_or_nobody",
    "C117_resetMaster_resets_the_master_refuted",
    "C117_nothing_gets_lost_refuted"
   ],
   "note": "PropFakeNet.v over FakeNet.v; the random generator all nodes share is modelled as one arbitrary sequence per node. Construction and release of objects other than packets are not followed."
  },
  {
   "property": "C118",
   "status": "proved",
   "theorems": [
    "C118_exactly_one_master",
    "C118_electsOneMaster",
    "C118_stableOverTime",
    "C118_one_master_without_a_first_refuted",
    "C118_one_master_with_repeated_ids_refuted",
    "C118_varied_draws_give_distinct_ids"
   ],
   "note": "PropSim.v over FakeNet.v and SimFacts.v; the condition on random numbers is in PropAgree.v. The bound of 900 nodes keeps a heartbeat from waiting a second for the air."
  },
  {
   "property": "C119",
   "status": "proved",
   "theorems": [
    "C119_the_palettes",
    "C119_the_single_colours",
    "C119_no_two_alike",
    "C119_palette_display_in_time"
   ],
   "note": "PropPalettes.v. The names are those of the comments in Effect.cpp; what red or teal looks like is left to the HSV conversion."
  },
  {
   "property": "C120",
   "status": "proved",
   "theorems": [
    "C120_silence_ends_with_one_master",
    "C120_a_replaced_master_leaves_silence",
    "C120_the_network_replaces_its_master"
   ],
   "note": "PropFailSim.v, SimFacts.v. A replacement while packets are still on the air or waiting is not covered by the second part; the first part applies once they have gone."
  },
  {
   "property": "C121",
   "status": "proved",
   "theorems": [
    "C121_everybody_shows_the_masters_effect",
    "C121_everybody_reports_the_masters_effect",
    "C121_the_master_reports_another_number_at_first",
    "C121_everybody_follows_a_new_master"
   ],
   "note": "PropAgree.v, AgreeFacts.v, AgreeRun.v. The bound of 499 nodes keeps a re-broadcast from waiting long enough to be overwritten twice."
  },
  {
   "property": "C122",
   "status": "proved",
   "theorems": [
    "C122_when_the_master_chooses",
    "C122_the_nodes_agree_most_of_the_time"
   ],
   "note": "PropAgree.v, PaceRun.v."
  },
  {
   "property": "C123",
   "status": "proved",
   "theorems": [
    "C123_reset_master_only_looks_at_node_0",
    "C123_no_master_is_replaced",
    "C123_the_replaced_master_keeps_its_number",
    "C123_the_test_of_an_unstable_master_fails"
   ],
   "note": "PropTimes.v over FakeNet.v."
  },
  {
   "property": "C124",
   "status": "proved",
   "theorems": [
    "C124_when_the_master_transmits",
    "C124_the_air_clears",
    "C124_clear_moments"
   ],
   "note": "PropTimes.v, Timetable.v."
  },
  {
   "property": "C125",
   "status": "proved",
   "theorems": [
    "C125_double_press_enters_the_boot_loader",
    "C125_single_presses_run_the_application",
    "C125_without_a_new_second_refuted",
    "C125_without_a_new_second",
    "C125_presses_without_a_new_second"
   ],
   "note": "PropReboot.v over Reboot.v. The clock library is modelled by the time it shows; C125_without_a_new_second_refuted is the finding."
  },
  {
   "property": "C126",
   "status": "proved",
   "theorems": [
    "C126_controller_never_stops",
    "C126_start_up_pictures",
    "C126_charge_does_not_linger"
   ],
   "note": "PropCtrlProgram.v over CtrlProgram.v, Battery.v, Controller.v."
  },
  {
   "property": "C127",
   "status": "proved",
   "theorems": [
    "C127_exactly_one_master_however_nodes_come_and_go",
    "C127_a_new_master_is_due",
    "C127_nobody_before_one_after",
    "C127_slaves_come_and_go"
   ],
   "note": "PropComeGo.v over FakeNet.v (support: Lull.v, Visits.v). Replacements happen at moments without a packet under way; with one under way see C117."
  },
  {
   "property": "C128",
   "status": "proved",
   "theorems": [
    "C128_tests_that_always_pass",
    "C128_tests_that_depend_on_chance",
    "C128_network_manager_tests",
    "C128_the_effect_set_by_hand_ends_refuted"
   ],
   "note": "PropUnitTests.v over UnitTests.v (support: UnitFacts.v, UnitRuns.v, UnitManager.v). The full reading of the last line of the two SetEffect tests is refuted."
  },
  {
   "property": "C129",
   "status": "proved",
   "theorems": [
    "C129_one_master_despite_loss",
    "C129_stableWithMildPacketLoss",
    "C129_without_loss_everybody_stays_in_contact",
    "C129_when_everything_is_lost",
    "C129_mild_loss_is_harmless_refuted",
    "C129_when_no_die_hits",
    "C129_mild_loss_without_a_hit"
   ],
   "note": "PropLoss.v over FakeNet.v (support: LossFacts.v). That mild loss is harmless for all random numbers is refuted."
  },
  {
   "property": "C130",
   "status": "proved",
   "theorems": [
    "C130_effect_tests_pass",
    "C130_every_effect_is_drawn_refuted",
    "C130_every_palette_is_drawn_refuted",
    "C130_led_manager_tests_pass"
   ],
   "note": "PropEffectTests.v over EffectTests.v (support: EffectRuns.v). That every effect and every palette is drawn is refuted."
  },
  {
   "property": "C131",
   "status": "proved",
   "theorems": [
    "C131_colour_tests_pass",
    "C131_other_tests_pass",
    "C131_passing_means_every_check_holds",
    "C131_what_the_tests_of_the_mathematics_check",
    "C131_wrap_around_passes",
    "C131_noise_tests_pass_refuted",
    "C131_invalid_packets_reach_nobody",
    "C131_invalid_packets_are_harmless_refuted"
   ],
   "note": "PropSmallTests.v over SmallTests.v. That four tests of the noise pass for all random numbers, and that the invalid packets are harmless, is refuted. The test of the wrap-around needs the exact formulas of lerp15by8 and ease8InOutApprox."
  },
  {
   "property": "C132",
   "status": "proved",
   "theorems": [
    "C132_standing_clock",
    "C132_device_never_fails",
    "C132_takeover_only_after_silence",
    "C132_silent_network_gets_a_master",
    "C132_heartbeats_apart",
    "C132_heartbeat_due_is_sent",
    "C132_heartbeats_carry_network_time",
    "C132_network_time_follows_heartbeat",
    "C132_hold_time_honoured",
    "C132_own_changes_every_minute",
    "C132_cadence_survives_change_of_master",
    "C132_cadence_survives_in_general_refuted"
   ],
   "note": "PropClock.v over RsmClock.v, SpecClock.v. Lifts the simplification that millis() has one value during a call; the order of the readings follows the source. That the cadence always survives a change of master is refuted."
  },
  {
   "property": "C133",
   "status": "proved",
   "theorems": [
    "C133_election",
    "C133_role_changes",
    "C133_unknown_types_inert",
    "C133_slaves_are_quiet",
    "C133_set_effect_adopted",
    "C133_control_adopted",
    "C133_nothing_else_changes_the_effect",
    "C133_rebroadcast_is_current",
    "C133_node_accepts_iff_not_recent",
    "C133_rebroadcasts_apart",
    "C133_rebroadcast_due_is_sent",
    "C133_own_changes_in_range"
   ],
   "note": "PropClock2.v over RsmClock.v, SpecClock.v: C10, C22, C23, C24, C27, C29, C32 and C39 once more, with a clock that moves during a call."
  },
  {
   "property": "C134",
   "status": "proved",
   "theorems": [
    "C134_the_test_passes_although_no_master_disappears",
    "C134_the_replaced_master_is_missed",
    "C134_the_test_when_node_0_is_elected"
   ],
   "note": "PropIntegration.v over FakeNet.v."
  },
  {
   "property": "C135",
   "status": "proved",
   "theorems": [
    "C135_clear_moments_for_half_an_hour",
    "C135_a_new_effect_is_everywhere_after_two_rounds",
    "C135_every_choice_is_drawn",
    "C135_when_the_test_of_the_effect_index_passes",
    "C135_the_test_of_the_effect_index_depends_on_the_seed"
   ],
   "note": "PropSpread.v and PropChoice.v over FakeNet.v (proofs in SpreadRun.v)."
  },
  {
   "property": "C136",
   "status": "proved",
   "theorems": [
    "C136_the_test_of_nodes_dropping_out_passes",
    "C136_stableWhenNodesDropOut_passes",
    "C136_no_master_for_a_second_after_the_replacement",
    "C136_what_the_counters_count",
    "C136_max_bad_ticks_is_the_longest_run_refuted",
    "C136_a_long_run_is_noticed",
    "C136_what_passing_means",
    "C136_max_bad_ticks_makes_no_difference"
   ],
   "note": "PropDropOut.v over FakeNet.v."
  },
  {
   "property": "C137",
   "status": "proved",
   "theorems": [
    "C137_what_passing_means",
    "C137_no_such_test_crashes",
    "C137_passes_while_everybody_hears_the_master",
    "C137_stableWithMildPacketLoss_passes_without_a_hit",
    "C137_the_tests_fail_when_everything_is_lost",
    "C137_the_dice_decide",
    "C137_without_a_hit_as_without_loss",
    "C137_the_test_with_loss_and_nodes_dropping_passes"
   ],
   "note": "PropMildLoss.v over FakeNet.v."
  },
  {
   "property": "C138",
   "status": "proved",
   "theorems": [
    "C138_one_prevails",
    "C138_a_tie_leaves_one_master",
    "C138_no_tie",
    "C138_electsOneMaster",
    "C138_stableOverTime",
    "C138_one_master_with_equal_ids_refuted"
   ],
   "note": "PropTie.v over FakeNet.v and TieFacts.v; it drops the condition of C118 that one wait is strictly the shortest."
  },
  {
   "property": "C139",
   "status": "proved",
   "theorems": [
    "C139_one_succeeds",
    "C139_a_tie_after_a_silence",
    "C139_no_tie",
    "C139_the_network_replaces_its_master"
   ],
   "note": "PropTieLater.v over FakeNet.v and TieFacts.v; it drops the condition of C120 that one wait is strictly the shortest, and adds that no change of the effect is due in the first second."
  },
  {
   "property": "C140",
   "status": "proved",
   "theorems": [
    "C140_one_master",
    "C140_times_stay_together",
    "C140_everybody_shows_it",
    "C140_one_animation",
    "C140_crystals"
   ],
   "note": "PropDrift.v; as C92 and C95, but clocks are arbitrary functions of an ideal time within stated bounds instead of that time plus a constant. Within one call the clock stands still (C132 lifts that for single nodes)."
  },
  {
   "property": "C141",
   "status": "proved",
   "theorems": [
    "C141_one_master",
    "C141_times_stay_together",
    "C141_told_once_shows_it",
    "C141_one_animation",
    "C141_seven_seconds_are_too_long",
    "C141_covers_C140"
   ],
   "note": "PropLossy.v; generalises C92, C95 and C140: instead of packets that all arrive, only a bound on how long a node goes without a heartbeat. C141_seven_seconds_are_too_long shows that some bound is needed."
  },
  {
   "property": "C142",
   "status": "proved",
   "theorems": [
    "C142_order_obeyed"
   ],
   "note": "PropLossyOrder.v; C96 under the assumptions of C141."
  },
  {
   "property": "C143",
   "status": "proved",
   "theorems": [
    "C143_a_network_starts",
    "C143_from_power_up_to_one_animation"
   ],
   "note": "PropLossyStart.v; C104 under the assumptions of C141."
  },
  {
   "property": "C144",
   "status": "proved",
   "theorems": [
    "C144_one_master",
    "C144_times_stay_together",
    "C144_one_animation",
    "C144_order_obeyed"
   ],
   "note": "PropInAndOut.v; facts shared with C141 and C142 are in Settled.v."
  },
  {
   "property": "C145",
   "status": "proved",
   "theorems": [
    "C145_a_node_blinks_red",
    "C145_every_led_of_a_node",
    "C145_the_converter_blinks",
    "C145_the_controller_blinks"
   ],
   "note": "PropDeadRadio.v; the loops are in DeadRadio.v."
  },
  {
   "property": "C146",
   "status": "proved",
   "theorems": [
    "C146_masters_only_lose",
    "C146_rival_has_to_win_every_time",
    "C146_the_winner_is_the_only_master",
    "C146_one_animation"
   ],
   "note": "PropMeeting.v; C110 under the assumptions of C141. That the others lose is not certain (C41); the theorem says what they need to stay."
  },
  {
   "property": "C147",
   "status": "proved",
   "theorems": [
    "C147_transmissions_bounded",
    "C147_originals_bounded",
    "C147_unaddressed_node",
    "C147_settled_network",
    "C147_heartbeats_at_least",
    "C147_heartbeats_at_most"
   ],
   "note": "PropTraffic.v, PropBeats.v, PropQuietAir.v; a count over all transmissions of a node, by an amortised argument over its three timers; for a network under the assumptions of C141."
  }
 ]
}
