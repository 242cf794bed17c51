{
 "claims": [
  {
   "property": "C01",
   "status": "proved",
   "theorems": [
    "C01_encrypt_block_is_fips197"
   ],
   "note": "Every configuration outside RV32+zk and big-endian constant-time, all three key sizes, every key and block."
  },
  {
   "property": "C02",
   "status": "proved",
   "theorems": [
    "C02_decrypt_block_is_fips197"
   ],
   "note": "Both construction paths (Aes*Dec::from and Aes*Enc::decrypter)."
  },
  {
   "property": "C03",
   "status": "proved",
   "theorems": [
    "C03_decrypt_encrypt",
    "C03_encrypt_decrypt",
    "C03_encrypter_side",
    "C03_same_key"
   ],
   "note": "All compiling configurations except RV32 (there it is false: C30_rv32_round_trip_refuted)."
  },
  {
   "property": "C04",
   "status": "proved",
   "theorems": [
    "C04_two_and_four_block_encryption"
   ],
   "note": ""
  },
  {
   "property": "C05",
   "status": "proved",
   "theorems": [
    "C05_two_and_four_block_decryption"
   ],
   "note": ""
  },
  {
   "property": "C06",
   "status": "proved",
   "theorems": [
    "C06_builds_interoperate"
   ],
   "note": ""
  },
  {
   "property": "C07",
   "status": "proved",
   "theorems": [
    "C07_round_keys_are_key_expansion"
   ],
   "note": ""
  },
  {
   "property": "C08",
   "status": "proved",
   "theorems": [
    "C08_conversions_lose_nothing"
   ],
   "note": ""
  },
  {
   "property": "C09",
   "status": "proved",
   "theorems": [
    "C09_enc_is_documented_round"
   ],
   "note": ""
  },
  {
   "property": "C10",
   "status": "proved",
   "theorems": [
    "C10_dec_is_documented_round"
   ],
   "note": ""
  },
  {
   "property": "C11",
   "status": "proved",
   "theorems": [
    "C11_mc_imc"
   ],
   "note": ""
  },
  {
   "property": "C12",
   "status": "proved",
   "theorems": [
    "C12_chains_are_documented",
    "C12_empty_slice_panics"
   ],
   "note": ""
  },
  {
   "property": "C13",
   "status": "proved",
   "theorems": [
    "C13_rounds_can_be_undone"
   ],
   "note": ""
  },
  {
   "property": "C14",
   "status": "proved",
   "theorems": [
    "C14_wide_rounds_are_lanewise"
   ],
   "note": ""
  },
  {
   "property": "C15",
   "status": "proved",
   "theorems": [
    "C15_byte_conversions_lossless"
   ],
   "note": ""
  },
  {
   "property": "C16",
   "status": "proved",
   "theorems": [
    "C16_store_to_exact"
   ],
   "note": ""
  },
  {
   "property": "C17",
   "status": "proved",
   "theorems": [
    "C17_try_from_total_and_exact"
   ],
   "note": ""
  },
  {
   "property": "C18",
   "status": "proved",
   "theorems": [
    "C18_u128_conversions"
   ],
   "note": ""
  },
  {
   "property": "C19",
   "status": "proved",
   "theorems": [
    "C19_equality_is_byte_equality"
   ],
   "note": ""
  },
  {
   "property": "C20",
   "status": "proved",
   "theorems": [
    "C20_bit_operators_bytewise"
   ],
   "note": ""
  },
  {
   "property": "C21",
   "status": "proved",
   "theorems": [
    "C21_zero"
   ],
   "note": ""
  },
  {
   "property": "C22",
   "status": "proved",
   "theorems": [
    "C22_wide_narrow_conversions"
   ],
   "note": ""
  },
  {
   "property": "C23",
   "status": "proved",
   "theorems": [
    "C23_digits",
    "C23_printed_forms",
    "C23_text_determines_block"
   ],
   "note": ""
  },
  {
   "property": "C24",
   "status": "proved",
   "theorems": [
    "C24_debug_text_reveals_key",
    "C24_key_object_debug",
    "C24_text_determines_object",
    "C24_wide_debug",
    "C24_encrypter_debug_reveals_key_everywhere"
   ],
   "note": ""
  },
  {
   "property": "C25",
   "status": "proved",
   "theorems": [
    "C25_constant_time_feature",
    "C25_nightly_only_when_asked",
    "C25_readme_is_selection",
    "C25_unambiguous",
    "C25_running_is_readme"
   ],
   "note": ""
  },
  {
   "property": "C26",
   "status": "proved",
   "theorems": [
    "C26_block_calls_return",
    "C26_chain_calls_return",
    "C26_cipher_calls_return",
    "C26_table_index_in_range",
    "C26_u128_calls_return"
   ],
   "note": ""
  },
  {
   "property": "C27",
   "status": "proved",
   "theorems": [
    "C27_batching_is_fips197",
    "C27_grouping_irrelevant",
    "C27_round_trip_any_grouping"
   ],
   "note": ""
  },
  {
   "property": "C28",
   "status": "proved",
   "theorems": [
    "C28_rv32_ciphers_are_permutations",
    "C28_rv32_rounds_are_permutations",
    "C28_decrypt_block_permutation",
    "C28_encrypt_block_permutation",
    "C28_rounds_are_permutations"
   ],
   "note": "All configurations; RV32 in Props_Actual, the others in Props_Cipher and Props_Rounds."
  },
  {
   "property": "C29",
   "status": "proved",
   "theorems": [
    "C29_bitslice_constant_time",
    "C29_programs_are_the_api",
    "C29_table_constant_time_refuted",
    "C29_table_program_is_the_api",
    "C29_table_trace_reveals_key"
   ],
   "note": "Bitslice: key set-up, encryption, decryption and encrypter() as programs of a small language, proved equal to the API model and with key- and data-independent traces, both endiannesses. Table backend: block encryption from a given key object as a program, proved equal to the API; its trace determines the key."
  },
  {
   "property": "C30",
   "status": "partial",
   "theorems": [
    "C30_rv32_conversions_refuted",
    "C30_rv32_chains_refuted",
    "C30_rv32_ciphers_refuted",
    "C30_rv32_encrypt_and_decrypt_wrong",
    "C30_rv32_key_schedule_refuted",
    "C30_rv32_round_trip_refuted",
    "C30_rv32_rounds_refuted"
   ],
   "note": "The property is FALSE of the code: refuted with concrete inputs for ciphers, key schedule, dec/dec_last/mc/imc and chains."
  },
  {
   "property": "C31",
   "status": "partial",
   "theorems": [
    "C31_be_constant_time_key_schedule_refuted",
    "C31_be_constant_time_refuted",
    "C31_be_constant_time_wrong"
   ],
   "note": "The property is FALSE of the code: refuted with concrete inputs for the three key sizes. True parts: C03, C09-C14, C28 hold there."
  },
  {
   "property": "C32",
   "status": "partial",
   "theorems": [
    "C32_compiles_unless_be_arm_aes",
    "C32_every_configuration_compiles_refuted",
    "C32_little_endian_compiles_partial",
    "C32_names_resolve"
   ],
   "note": "The property is FALSE of the code (big-endian AArch64 with aes). C32_compiles_unless_be_arm_aes gives the exact set of failing configurations; C32_names_resolve says why: every name the modules of a build use is declared, visibly and once, exactly in the builds that compile."
  },
  {
   "property": "C33",
   "status": "proved",
   "theorems": [
    "C33_rv32_aes256_schedule_right_until_last",
    "C33_rv32_chains_exact",
    "C33_rv32_ciphers_exact",
    "C33_rv32_conversions_twice",
    "C33_rv32_key_schedule_exact",
    "C33_rv32_rounds_agree_iff",
    "C33_rv32_rounds_exact"
   ],
   "note": "RV32 with zkne+zknd."
  },
  {
   "property": "C34",
   "status": "proved",
   "theorems": [
    "C34_be_ciphers_exact",
    "C34_be_key_schedule_exact"
   ],
   "note": "Big-endian with constant-time, configurations with rustc_ok."
  },
  {
   "property": "C35",
   "status": "proved",
   "theorems": [
    "C35_adjacent_round_keys_determine_key",
    "C35_distinct_keys_distinct_objects"
   ],
   "note": ""
  },
  {
   "property": "C36",
   "status": "proved",
   "theorems": [
    "C36_accelerated_constant_time",
    "C36_constant_time_feature_is_enough",
    "C36_every_build_runs_one",
    "C36_otherwise_tables",
    "C36_programs_are_the_api"
   ],
   "note": "All accelerated backends and the bitslice backend: the programs are proved equal to the API calls on 1, 2 and 4 blocks, their traces equal for all keys and data. A build with neither acceleration nor the feature is the table backend (C36_otherwise_tables), which is not constant time (C29)."
  },
  {
   "property": "C37",
   "status": "proved",
   "theorems": [
    "C37_accelerated_uses_aes_instructions",
    "C37_only_promised_instructions",
    "C37_software_needs_nothing",
    "C37_observed_is_the_crate",
    "C37_software_client",
    "C37_whatever_a_client_does"
   ],
   "note": "All configurations and all programs of C36. Plain vector logic/load/store instructions are not tracked (DESIGN 3.5). C37_whatever_a_client_does / C37_software_client cover every call of every client."
  },
  {
   "property": "C38",
   "status": "proved",
   "theorems": [
    "C38_buffer_holds_fips197",
    "C38_in_place_round_trip",
    "C38_message_in_place",
    "C38_store_to_any_address",
    "C38_try_from_any_address",
    "C38_key_setup_in_memory"
   ],
   "note": "Pointer-level model of every block type's store_to/From/new/TryFrom; in-place encryption by induction over the groups; all addresses and memories. Key set-up through from_raw_parts_mut slices on bytes of memory, any layouts, any address."
  },
  {
   "property": "C39",
   "status": "proved",
   "theorems": [
    "C39_chains_are_permutations",
    "C39_dec_diffusion",
    "C39_enc_diffusion",
    "C39_key_is_added_last",
    "C39_mc_imc_linear"
   ],
   "note": "Key addition, linearity and chain permutations: every build and width; diffusion of enc: every build, of dec: all but RV32 (there ShiftRows is wrong, C30)."
  },
  {
   "property": "C40",
   "status": "proved",
   "theorems": [
    "C40_any_client",
    "C40_builds_indistinguishable",
    "C40_clients_see_fips197",
    "C40_no_client_breaks_it"
   ],
   "note": "Simulation between the model of the whole public API and the ideal library, by induction on the client; conforming builds: every client; the other two groups: clients that keep to the calls C30/C31 leave intact; safety part: every build and client."
  },
  {
   "property": "C41",
   "status": "proved",
   "theorems": [
    "C41_distinguishable_iff",
    "C41_every_client_on_every_build",
    "C41_standard_is_ideal"
   ],
   "note": "Every rustc configuration and every client, no restriction: transcript equal to that of one of three reference libraries; distinguishability decided exactly."
  },
  {
   "property": "C42",
   "status": "proved",
   "theorems": [
    "C42_every_schedule",
    "C42_no_thread_waits",
    "C42_shared_values_stay",
    "C42_threads_see_fips197"
   ],
   "note": "Small-step interleaving machine, any number of threads and any schedule; frame property of every API call; transcripts, progress, immutability of shared values."
  },
  {
   "property": "C43",
   "status": "proved",
   "theorems": [
    "C43_chains_are_the_api",
    "C43_constant_time_feature_equality_refuted",
    "C43_data_operations_are_the_api",
    "C43_data_operations_constant_time",
    "C43_equality_constant_time_builds",
    "C43_equality_constant_time_iff",
    "C43_equality_shows_the_agreeing_prefix",
    "C43_mix_is_the_api",
    "C43_rounds_and_chains_constant_time",
    "C43_rounds_are_the_api"
   ],
   "note": "Every call of the block types as a program, proved equal to the API; constant time for all operands and chain lengths; the trace of == characterised exactly (iff); under the constant-time feature == on AesBlockX2/X4 is not constant time (refuted with witness)."
  },
  {
   "property": "C44",
   "status": "proved",
   "theorems": [
    "C44_clients_constant_time",
    "C44_straight_line",
    "C44_timed_is_the_crate",
    "C44_what_is_silent"
   ],
   "note": "Every call but formatting, on every build, as a program (copies byte by byte, slice length tests included), proved to give every client the crate's transcript; non-interference for any two adaptive clients with the same call shapes, by a lock-step relation on variables."
  },
  {
   "property": "C45",
   "status": "proved",
   "theorems": [
    "C45_clients_constant_time_but_lookups",
    "C45_lookup_count",
    "C45_lookups_exist",
    "C45_programs_are_the_api",
    "C45_rounds_and_chains_constant_time_but_lookups",
    "C45_software_constant_time_but_lookups",
    "C45_straight_line",
    "C45_what_is_silent"
   ],
   "note": "The whole table backend (key set-up included) as programs with constant tables, proved equal to the API; non-interference up to the entries read, exact number of look-ups (16 per round and block, ...), all inside the tables; the same for whole clients on every build. That the entries themselves reveal the key is C29."
  },
  {
   "property": "C46",
   "status": "proved",
   "theorems": [
    "C46_conversion_reveals_key",
    "C46_decrypt_reveals_key_and_message",
    "C46_encrypt_reveals_key_and_message",
    "C46_key_setup_reveals_key",
    "C46_mixing_reveals_block",
    "C46_round_reveals_first_operand",
    "C46_trace_reveals_key_and_message"
   ],
   "note": "Observations of one call of the default software build (its table look-ups) are equal iff key and message are: key set-up, conversion, encrypt, decrypt, mixing, single rounds (first operand only). Shown with the feature constant-time for contrast (C44)."
  },
  {
   "property": "C47",
   "status": "proved",
   "theorems": [
    "C47_agrees_with_key_objects",
    "C47_chains_with_own_schedule",
    "C47_decryption_from_rounds",
    "C47_encryption_from_rounds",
    "C47_schedule_from_rounds"
   ],
   "note": "Encryption: every build that compiles. Decryption and chains: every build but RV32 with Zkne+Zknd, whose dec and imc are wrong (C30, C33)."
  },
  {
   "property": "C48",
   "status": "proved",
   "theorems": [
    "C48_chaining_round_trip",
    "C48_cipher_block_chaining",
    "C48_counter_mode",
    "C48_counter_mode_undoes_itself"
   ],
   "note": "User programs over the API; CTR/CBC themselves are stated on bytes in Spec_Modes. Equality with the standard on conforming builds; involution of CTR on every build; CBC round trip on all but RV32."
  },
  {
   "property": "C49",
   "status": "proved",
   "theorems": [
    "C49_calls_cost",
    "C49_chains_cost",
    "C49_mixing_costs",
    "C49_others_pay_per_block",
    "C49_rounds_cost",
    "C49_same_instructions_for_all_data",
    "C49_the_selected_one_is_cheapest",
    "C49_vaes512_four_for_one",
    "C49_every_call_of_every_client",
    "C49_total",
    "C49_clients"
   ],
   "note": "Programs of C36/C43/C45 (proved equal to the API calls). Counts uses of AES intrinsics, data movement excepted; compiler optimisations are not modelled. C49_clients, C49_every_call_of_every_client and C49_total cover every call of every client."
  },
  {
   "property": "C50",
   "status": "proved",
   "theorems": [
    "C50_aegis_opening",
    "C50_aegis_sealing",
    "C50_opens_what_was_sealed"
   ],
   "note": "User programs over the API; AEGIS-128L itself is stated on bytes in Spec_Aegis (draft-irtf-cfrg-aegis-aead) and checked against two of its test vectors. Holds on every build, also those whose AES is wrong, because their encryption round is right (C09)."
  },
  {
   "property": "C51",
   "status": "proved",
   "theorems": [
    "C51_columns_are_blocks",
    "C51_new_by_transmute",
    "C51_reinterpretations_are_sound",
    "C51_sizes_and_no_padding",
    "C51_wide_new_by_transmute",
    "C51_zeroed_blocks_are_zero_columns"
   ],
   "note": "Layout rules of the Rust reference as a predicate on compilers (Spec_Layout); the only extra assumption is that u128, __m128i and uint8x16_t are aligned at least like u32. Provenance and lifetimes of the raw pointers are not modelled (bounds: C38)."
  },
  {
   "property": "C52",
   "status": "proved",
   "theorems": [
    "C52_any_permitted_layout_refuted",
    "C52_right_iff_declaration_order",
    "C52_wrong_otherwise"
   ],
   "note": "The unconditional claim (right for every permitted layout) is false: C52_any_permitted_layout_refuted. The other RV64 theorems (C01, C05, ...) are for declaration order, the layout rustc uses today."
  },
  {
   "property": "C53",
   "status": "proved",
   "theorems": [
    "C53_decrypter_holds_eic_keys",
    "C53_equivalent_inverse_cipher",
    "C53_objects_run_the_keys_they_hold"
   ],
   "note": "RV32 (whose decryption is not EQINVCIPHER) is characterised in C33."
  },
  {
   "property": "C54",
   "status": "proved",
   "theorems": [
    "C54_blocks_to_any_sink",
    "C54_no_text_lost_or_invented",
    "C54_strings_and_buffers",
    "C54_wide_and_key_objects_to_any_sink"
   ],
   "note": "Every write, every sink. core::fmt (integers, builders, PadAdapter) is modelled from its source."
  },
  {
   "property": "C55",
   "status": "proved",
   "theorems": [
    "C55_lint_jobs_exact",
    "C55_never_built",
    "C55_suite_green_iff_fips197",
    "C55_test_jobs_run_what_they_name",
    "C55_tested_iff_conforming"
   ],
   "note": "The suite and the CI jobs as functions of the build; the rustc facts used are the five targets' architectures and the x86 feature implications."
  },
  {
   "property": "C56",
   "status": "proved",
   "theorems": [
    "C56_all_edits_needed",
    "C56_edits_harmless",
    "C56_exactly_these_edits",
    "C56_no_edit_is_the_code",
    "C56_suite_green_iff_repaired"
   ],
   "note": "The edits are hypothetical changes to the source; impl_with no_edits is the code as it is."
  },
  {
   "property": "C57",
   "status": "proved",
   "theorems": [
    "C57_additive_on_usual_targets",
    "C57_additive_refuted",
    "C57_constant_time_is_kept",
    "C57_what_others_ask_for"
   ],
   "note": "One copy of the crate in the build; C57_additive_refuted is the negative part of the statement."
  },
  {
   "property": "C58",
   "status": "proved",
   "theorems": [
    "C58_auto_traits",
    "C58_clients_use_the_whole_interface",
    "C58_constant_patterns",
    "C58_constants",
    "C58_same_programs_exact",
    "C58_source_compatible",
    "C58_source_compatible_refuted",
    "C58_the_interface"
   ],
   "note": "C58_source_compatible_refuted is the negative part of the statement (a constant block as a pattern)."
  },
  {
   "property": "C59",
   "status": "proved",
   "theorems": [
    "C59_cmac",
    "C59_key_wrap",
    "C59_unwrap_exact",
    "C59_xts",
    "C59_xts_round_trip"
   ],
   "note": "User programs over the API; the three standards are stated on bytes in Spec_Modes2. Equality with the standard on conforming builds; XTS round trip and exactness of unwrapping on all builds but RV32."
  },
  {
   "property": "C60",
   "status": "proved",
   "theorems": [
    "C60_aegisx_opening",
    "C60_aegisx_sealing",
    "C60_one_lane",
    "C60_opens_what_was_sealed"
   ],
   "note": "Both widths from one generic proof over D lanes; all builds that compile (encryption round only, so RV32 and big-endian constant-time are included). The cipher is specified per lane on top of C50's AEGIS-128L. Draft vectors (two pieces, last one partial) as Examples, empty message as Goals; tag comparison with ==, which is not constant-time (C43)."
  }
 ]
}