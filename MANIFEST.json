{
 "claims": [
  {
   "property": "C01",
   "status": "proved",
   "theorems": [
    "C01_words_to_bytes_and_back",
    "C01_bytes_to_words_and_back",
    "C01_scalar_encoders",
    "C01_partial_word_dropped"
   ],
   "note": ""
  },
  {
   "property": "C02",
   "status": "proved",
   "theorems": [
    "C02_amd64",
    "C02_arm64",
    "C02_generic",
    "C02_short",
    "C02_as_list",
    "C02_overlap_refuted"
   ],
   "note": "C02_overlap_refuted shows the condition on overlap is needed: amd64 and the byte loop then give different bytes."
  },
  {
   "property": "C03",
   "status": "proved",
   "theorems": [
    "C03_keccakf800_is_keccak_f"
   ],
   "note": ""
  },
  {
   "property": "C04",
   "status": "proved",
   "theorems": [
    "C04_keccakf800_bijective"
   ],
   "note": ""
  },
  {
   "property": "C05",
   "status": "proved",
   "theorems": [
    "C05_siphash_conforms",
    "C05_nodes",
    "C05_block"
   ],
   "note": ""
  },
  {
   "property": "C06",
   "status": "proved",
   "theorems": [
    "C06_xoshiro_conforms",
    "C06_xoshiro_reversible",
    "C06_zero_state_is_isolated"
   ],
   "note": ""
  },
  {
   "property": "C07",
   "status": "proved",
   "theorems": [
    "C07_fnv_steps_bijective",
    "C07_fnv_values",
    "C07_fnv_hash"
   ],
   "note": ""
  },
  {
   "property": "C08",
   "status": "proved",
   "theorems": [
    "C08_epoch_interval",
    "C08_epoch_monotone",
    "C08_epoch_step"
   ],
   "note": ""
  },
  {
   "property": "C09",
   "status": "proved",
   "theorems": [
    "C09_seed_is_keccak_chain",
    "C09_seed_of_epoch"
   ],
   "note": ""
  },
  {
   "property": "C10",
   "status": "proved",
   "theorems": [
    "C10_cache_tables",
    "C10_dataset_tables",
    "C10_tables_equal_search"
   ],
   "note": ""
  },
  {
   "property": "C11",
   "status": "proved",
   "theorems": [
    "C11_cache_size_search",
    "C11_dataset_size_search",
    "C11_size_unique",
    "C11_tiny_nominal_refuted"
   ],
   "note": "C11_tiny_nominal_refuted shows the lower bound on the nominal size is needed"
  },
  {
   "property": "C12",
   "status": "proved",
   "theorems": [
    "C12_ethereum",
    "C12_ethereum_classic",
    "C12_ravencoin",
    "C12_firo",
    "C12_conflux",
    "C12_epoch_2044_refuted",
    "C12_gap_refuted",
    "C12_classic_refuted"
   ],
   "note": "The claim for every height is refuted (C12_epoch_2044_refuted, C12_gap_refuted, C12_classic_refuted); proved on the heights that can be served. Epochs whose cache exceeds 4 GiB or dataset 256 GiB are not covered."
  },
  {
   "property": "C13",
   "status": "proved",
   "theorems": [
    "C13_cache_generation",
    "C13_large_cache_refuted",
    "C13_cache_shape"
   ],
   "note": ""
  },
  {
   "property": "C14",
   "status": "proved",
   "theorems": [
    "C14_dataset_item",
    "C14_large_cache_refuted",
    "C14_multi_item",
    "C14_lookup_funcs",
    "C14_wraps_at_2_32"
   ],
   "note": ""
  },
  {
   "property": "C15",
   "status": "proved",
   "theorems": [
    "C15_l1_is_dataset_prefix",
    "C15_l1_words"
   ],
   "note": ""
  },
  {
   "property": "C16",
   "status": "proved",
   "theorems": [
    "C16_ethash",
    "C16_octopus",
    "C16_progpow",
    "C16_shipped_sizes"
   ],
   "note": ""
  },
  {
   "property": "C17",
   "status": "proved",
   "theorems": [
    "C17_lru",
    "C17_hit_reuses",
    "C17_any_clock",
    "C17_no_capacity_refuted"
   ],
   "note": ""
  },
  {
   "property": "C18",
   "status": "proved",
   "theorems": [
    "C18_returns_complete",
    "C18_generated_once",
    "C18_registry",
    "C18_no_deadlock",
    "C18_terminates"
   ],
   "note": ""
  },
  {
   "property": "C19",
   "status": "proved",
   "theorems": [
    "C19_never_partial",
    "C19_readers",
    "C19_temp_condition",
    "C19_size_condition",
    "C19_same_suffix_refuted"
   ],
   "note": "proved for runs in which temporary names in use differ; C19_same_suffix_refuted shows the condition is needed"
  },
  {
   "property": "C20",
   "status": "proved",
   "theorems": [
    "C20_disk_state_irrelevant",
    "C20_always_ends",
    "C20_short_file_refuted",
    "C20_foreign_file_refuted",
    "C20_shared_seed_refuted"
   ],
   "note": "the conditions on files already present are needed: C20_short_file_refuted, C20_foreign_file_refuted, C20_shared_seed_refuted"
  },
  {
   "property": "C21",
   "status": "proved",
   "theorems": [
    "C21_names_do_not_collide",
    "C21_temporary_names",
    "C21_shipped_clients",
    "C21_slash_refuted"
   ],
   "note": "C21_slash_refuted shows that names with slashes can collide"
  },
  {
   "property": "C22",
   "status": "proved",
   "theorems": [
    "C22_hashimoto",
    "C22_depends_on_dataset_only"
   ],
   "note": "For datasets of 128 bytes to 256 GiB; lookup is only assumed to answer for the items of the dataset."
  },
  {
   "property": "C23",
   "status": "proved",
   "theorems": [
    "C23_ethash",
    "C23_octopus"
   ],
   "note": "Stated for calls that return; C12 says which do."
  },
  {
   "property": "C24",
   "status": "proved",
   "theorems": [
    "C24_draws_visit_every_register",
    "C24_sequences"
   ],
   "note": ""
  },
  {
   "property": "C25",
   "status": "proved",
   "theorems": [
    "C25_distinct_in_range",
    "C25_every_pair_once",
    "C25_wraps_refuted"
   ],
   "note": "All register counts 2..65535; the wrap at 65537 is shown by C25_wraps_refuted."
  },
  {
   "property": "C26",
   "status": "proved",
   "theorems": [
    "C26_merge_bijective",
    "C26_merge_operations"
   ],
   "note": ""
  },
  {
   "property": "C27",
   "status": "proved",
   "theorems": [
    "C27_math_operations",
    "C27_result_is_a_word"
   ],
   "note": ""
  },
  {
   "property": "C28",
   "status": "proved",
   "theorems": [
    "C28_draws_follow_kiss99",
    "C28_components_bijective"
   ],
   "note": ""
  },
  {
   "property": "C29",
   "status": "proved",
   "theorems": [
    "C29_hash",
    "C29_shipped_configurations",
    "C29_period"
   ],
   "note": "cfg_ok states the parameter ranges (2..65535 registers, 1..2^32-1 lanes, ...)."
  },
  {
   "property": "C30",
   "status": "proved",
   "theorems": [
    "C30_kawpow",
    "C30_firopow",
    "C30_progpow094"
   ],
   "note": "Relative to Keccak-f[800] as specified in KeccakSpec (C03) and the mix of C29."
  },
  {
   "property": "C31",
   "status": "proved",
   "theorems": [
    "C31_period"
   ],
   "note": "Stated for calls that return; C12 says which do."
  },
  {
   "property": "C32",
   "status": "proved",
   "theorems": [
    "C32_coefficients",
    "C32_modulus_prime",
    "C32_power_and_gcd"
   ],
   "note": ""
  },
  {
   "property": "C33",
   "status": "proved",
   "theorems": [
    "C33_search"
   ],
   "note": ""
  },
  {
   "property": "C34",
   "status": "proved",
   "theorems": [
    "C34_evaluation"
   ],
   "note": ""
  },
  {
   "property": "C35",
   "status": "proved",
   "theorems": [
    "C35_digest",
    "C35_empty_dataset_panics"
   ],
   "note": ""
  },
  {
   "property": "C36",
   "status": "proved",
   "theorems": [
    "C36_verify_terminates",
    "C36_zero_proof_size_panics"
   ],
   "note": ""
  },
  {
   "property": "C37",
   "status": "proved",
   "theorems": [
    "C37_cuckoo_accepts_exactly_cycles",
    "C37_cuckaroo_accepts_exactly_cycles",
    "C37_aeternity",
    "C37_cortex"
   ],
   "note": ""
  },
  {
   "property": "C38",
   "status": "proved",
   "theorems": [
    "C38_canonical_order_refuted",
    "C38_every_order_is_accepted"
   ],
   "note": "The expected property (ascending order enforced) is refuted: C38_canonical_order_refuted; C38_every_order_is_accepted is what holds instead."
  },
  {
   "property": "C39",
   "status": "proved",
   "theorems": [
    "C39_distinct_edges"
   ],
   "note": ""
  },
  {
   "property": "C40",
   "status": "proved",
   "theorems": [
    "C40_verdicts",
    "C40_walk",
    "C40_one_end"
   ],
   "note": ""
  },
  {
   "property": "C41",
   "status": "proved",
   "theorems": [
    "C41_decode",
    "C41_bijection"
   ],
   "note": "Decoding of solutions below 2^32 bytes; existence and uniqueness of the encoding of every index list."
  },
  {
   "property": "C42",
   "status": "proved",
   "theorems": [
    "C42_verify_usable",
    "C42_verify_shipped",
    "C42_networks",
    "C42_all_digits_cancel"
   ],
   "note": "Any 64-byte-bounded hash function; VecEqui.v replays the test suite with BLAKE2b."
  },
  {
   "property": "C43",
   "status": "proved",
   "theorems": [
    "C43_distinct",
    "C43_no_swap",
    "C43_smallest_first",
    "C43_one_arrangement"
   ],
   "note": ""
  },
  {
   "property": "C44",
   "status": "proved",
   "theorems": [
    "C44_exact",
    "C44_remainder",
    "C44_error",
    "C44_injective",
    "C44_other_widths_refuted",
    "C44_short_input_refuted"
   ],
   "note": "Positive part proved for widths 8-26, 28, 32; loss on 27, 29, 30, 31 and the same-length shortcut refuted by witnesses."
  },
  {
   "property": "C45",
   "status": "proved",
   "theorems": [
    "C45_twisted",
    "C45_bytes"
   ],
   "note": ""
  },
  {
   "property": "C46",
   "status": "proved",
   "theorems": [
    "C46_usable_returns",
    "C46_shipped_returns",
    "C46_spare_ignored",
    "C46_largest_k_panics_refuted",
    "C46_large_n_panics_refuted",
    "C46_personal_panics_refuted",
    "C46_empty_solution_panics_refuted",
    "C46_never_returns_refuted"
   ],
   "note": "Returns for shipped and usable clients; the unrestricted claim is refuted by four panics and one endless loop."
  },
  {
   "property": "C47",
   "status": "proved",
   "theorems": [
    "C47_decode",
    "C47_bijection"
   ],
   "note": ""
  },
  {
   "property": "C48",
   "status": "proved",
   "theorems": [
    "C48_verify",
    "C48_accepts",
    "C48_beam",
    "C48_lengths",
    "C48_returns",
    "C48_personal_panics_refuted",
    "C48_parameters_unused"
   ],
   "note": "Refuted for clients whose personalisation exceeds 8 bytes (C48_personal_panics_refuted)."
  },
  {
   "property": "C49",
   "status": "proved",
   "theorems": [
    "C49_distinct",
    "C49_smallest_first",
    "C49_no_swap",
    "C49_one_arrangement"
   ],
   "note": ""
  },
  {
   "property": "C50",
   "status": "proved",
   "theorems": [
    "C50_zero_hash_never_returns",
    "C50_terminates_refuted",
    "C50_returns_iff",
    "C50_only_zero_hash_stuck"
   ],
   "note": "termination for every hash refuted by the zero hash; exact condition proved"
  },
  {
   "property": "C51",
   "status": "proved",
   "theorems": [
    "C51_digest",
    "C51_product_exact",
    "C51_hash_length"
   ],
   "note": ""
  },
  {
   "property": "C52",
   "status": "proved",
   "theorems": [
    "C52_table_size",
    "C52_growth",
    "C52_first_step"
   ],
   "note": ""
  },
  {
   "property": "C53",
   "status": "proved",
   "theorems": [
    "C53_digest",
    "C53_standard_digest",
    "C53_short_sum",
    "C53_padding_refuted",
    "C53_message_length"
   ],
   "note": "padded-sum claim refuted for small sums; exact behaviour proved"
  },
  {
   "property": "C54",
   "status": "proved",
   "theorems": [
    "C54_panics_iff",
    "C54_never_panics_refuted",
    "C54_ergo_never_panics"
   ],
   "note": "never-panics refuted; exact panic condition proved"
  },
  {
   "property": "C55",
   "status": "proved",
   "theorems": [
    "C55_sponge",
    "C55_nervos",
    "C55_length_ignored",
    "C55_rounds_bound",
    "C55_rate_bound",
    "C55_rate_zero",
    "C55_constants"
   ],
   "note": "Model takes nonnegative parameters; rates that are not multiples of 32 bits are not characterised. Test vector and constants replayed in VecEagle.v with the real SHAKE256."
  },
  {
   "property": "C56",
   "status": "proved",
   "theorems": [
    "C56_bijection"
   ],
   "note": "Totality, injectivity and surjectivity on all 16-word states for every round count up to 43, via explicit inverses of the four stages."
  },
  {
   "property": "C57",
   "status": "proved",
   "theorems": [
    "C57_digest_of_absorbed",
    "C57_absorbed_alike_iff",
    "C57_separates_refuted",
    "C57_same_digest",
    "C57_separates_same_length",
    "C57_separates_whole_words"
   ],
   "note": "The original separation claim is refuted; an exact characterisation and the two positive cases are proved."
  },
  {
   "property": "C58",
   "status": "proved",
   "theorems": [
    "C58_dag_clients",
    "C58_heavyhash",
    "C58_autolykos",
    "C58_beam",
    "C58_cuckoo"
   ],
   "note": ""
  },
  {
   "property": "C59",
   "status": "proved",
   "theorems": [
    "C59_hashimoto",
    "C59_progpow",
    "C59_octopus",
    "C59_heavyhash",
    "C59_autolykos",
    "C59_eaglesong"
   ],
   "note": ""
  },
  {
   "property": "C60",
   "status": "proved",
   "theorems": [
    "C60_emitted_entries",
    "C60_every_epoch_refuted",
    "C60_complete_when_divisible",
    "C60_shipped_generator"
   ],
   "note": "expected property refuted (C60_every_epoch_refuted); exact set of emitted entries proved"
  },
  {
   "property": "C61",
   "status": "proved",
   "theorems": [
    "C61_rank_test_exact_refuted",
    "C61_architecture_independent_refuted",
    "C61_rank_test_total"
   ],
   "note": "both expected claims refuted by explicit matrices, totality proved"
  },
  {
   "property": "C62",
   "status": "proved",
   "theorems": [
    "C62_no_read_after_unmap",
    "C62_unmapped_is_gone",
    "C62_bounded_when_idle",
    "C62_without_keepalive_refuted"
   ],
   "note": ""
  },
  {
   "property": "C63",
   "status": "proved",
   "theorems": [
    "C63_leftovers_stay",
    "C63_disk_use_bounded_refuted"
   ],
   "note": ""
  },
  {
   "property": "C64",
   "status": "proved",
   "theorems": [
    "C64_successful_run"
   ],
   "note": ""
  },
  {
   "property": "C65",
   "status": "proved",
   "theorems": [
    "C65_files_on_disk",
    "C65_every_sequence",
    "C65_ascending_bounded",
    "C65_descending_keeps_all",
    "C65_disk_use_bounded_refuted"
   ],
   "note": ""
  },
  {
   "property": "C66",
   "status": "proved",
   "theorems": [
    "C66_memory",
    "C66_ethereum",
    "C66_ethereum_classic",
    "C66_ravencoin",
    "C66_firo",
    "C66_conflux"
   ],
   "note": ""
  },
  {
   "property": "C67",
   "status": "proved",
   "theorems": [
    "C67_synced",
    "C67_power_failure_refuted"
   ],
   "note": ""
  },
  {
   "property": "C68",
   "status": "proved",
   "theorems": [
    "C68_default_dir",
    "C68_files_inside",
    "C68_home_ignored",
    "C68_windows",
    "C68_windows_name_ignored",
    "C68_no_home"
   ],
   "note": ""
  },
  {
   "property": "C69",
   "status": "proved",
   "theorems": [
    "C69_conflicts_ordered",
    "C69_no_data_race",
    "C69_all_executions"
   ],
   "note": ""
  },
  {
   "property": "C70",
   "status": "proved",
   "theorems": [
    "C70_words",
    "C70_little_endian",
    "C70_lookups",
    "C70_ethash",
    "C70_same_words",
    "C70_files",
    "C70_little_files",
    "C70_byte_order_refuted"
   ],
   "note": ""
  },
  {
   "property": "C71",
   "status": "proved",
   "theorems": [
    "C71_calls_together",
    "C71_accesses",
    "C71_no_conflict",
    "C71_every_schedule_ends"
   ],
   "note": ""
  },
  {
   "property": "C72",
   "status": "proved",
   "theorems": [
    "C72_answered",
    "C72_panics_only_there",
    "C72_told_once",
    "C72_no_one_waits",
    "C72_process_ends",
    "C72_told_a_caller",
    "C72_no_capacity_refuted",
    "C72_ethereum",
    "C72_ethereum_classic",
    "C72_ravencoin",
    "C72_firo",
    "C72_conflux",
    "C72_second_call_refuted",
    "C72_each_call",
    "C72_next_call_refuted",
    "C72_no_capacity_calls_refuted",
    "C72_leftover_answers",
    "C72_nothing_left"
   ],
   "note": ""
  },
  {
   "property": "C73",
   "status": "proved",
   "theorems": [
    "C73_numbers",
    "C73_flags",
    "C73_command_lines",
    "C73_bad_command_line",
    "C73_right_file",
    "C73_else_nothing",
    "C73_path",
    "C73_path_refuted",
    "C73_go_generate"
   ],
   "note": ""
  },
  {
   "property": "C74",
   "status": "proved",
   "theorems": [
    "C74_determined",
    "C74_ethash_items",
    "C74_progpow_pages",
    "C74_variants_pages",
    "C74_octopus_items",
    "C74_item_rows",
    "C74_light_ethash",
    "C74_light_progpow",
    "C74_light_octopus",
    "C74_item_hashes",
    "C74_light_hashes",
    "C74_heavyhash",
    "C74_autolykos",
    "C74_equihash",
    "C74_beam",
    "C74_cuckoo_header",
    "C74_cuckoo_edges"
   ],
   "note": ""
  },
  {
   "property": "C75",
   "status": "proved",
   "theorems": [
    "C75_ethash",
    "C75_ethash_calls",
    "C75_progpow",
    "C75_progpow_calls",
    "C75_octopus",
    "C75_octopus_calls",
    "C75_heavyhash",
    "C75_autolykos_height_refuted"
   ],
   "note": ""
  },
  {
   "property": "C76",
   "status": "proved",
   "theorems": [
    "C76_same_verdicts",
    "C76_errors",
    "C76_one_text"
   ],
   "note": ""
  },
  {
   "property": "C77",
   "status": "proved",
   "theorems": [
    "C77_same_verdicts",
    "C77_errors"
   ],
   "note": ""
  }
 ]
}