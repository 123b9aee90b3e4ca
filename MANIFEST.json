{
 "claims": [
  {
   "property": "C01",
   "status": "proved",
   "theorems": [
    "C01_mod_test_accepts",
    "C01_mod_test_rejects"
   ],
   "note": ""
  },
  {
   "property": "C02",
   "status": "proved",
   "theorems": [
    "C02_mod_compiled_is_identity"
   ],
   "note": ""
  },
  {
   "property": "C03",
   "status": "proved",
   "theorems": [
    "C03_fr_ops_test"
   ],
   "note": ""
  },
  {
   "property": "C04",
   "status": "proved",
   "theorems": [
    "C04_fr_ops_compiled"
   ],
   "note": ""
  },
  {
   "property": "C05",
   "status": "proved",
   "theorems": [
    "C05_fr_pow_test",
    "C05_fr_pow_nonpositive",
    "C05_fr_pow_compiled",
    "C05_fr_pow_zero_refuted"
   ],
   "note": ""
  },
  {
   "property": "C06",
   "status": "proved",
   "theorems": [
    "C06_fr_div_test",
    "C06_fr_div_unique",
    "C06_fr_div_by_zero",
    "C06_fr_div_zero_zero",
    "C06_fr_div_compiled"
   ],
   "note": ""
  },
  {
   "property": "C07",
   "status": "proved",
   "theorems": [
    "C07_fr_mul_neg_test",
    "C07_fr_mul_neg_canonical_refuted",
    "C07_fr_mul_neg_never_compiles"
   ],
   "note": ""
  },
  {
   "property": "C08",
   "status": "proved",
   "theorems": [
    "C08_modHint_euclid"
   ],
   "note": ""
  },
  {
   "property": "C09",
   "status": "proved",
   "theorems": [
    "C09_decimal_roundtrip",
    "C09_non_numeral_is_nil"
   ],
   "note": ""
  },
  {
   "property": "C10",
   "status": "proved",
   "theorems": [
    "C10_printed_point_parses",
    "C10_hex_strings",
    "C10_point_in_text"
   ],
   "note": ""
  },
  {
   "property": "C11",
   "status": "proved",
   "theorems": [
    "C11_MsmHint_valid",
    "C11_MsmHint_invalid",
    "C11_MsmHint_too_long",
    "C11_MsmHint_arity"
   ],
   "note": ""
  },
  {
   "property": "C12",
   "status": "proved",
   "theorems": [
    "C12_AddHint_valid",
    "C12_AddHint_invalid",
    "C12_AddHint_too_long",
    "C12_AddHint_arity"
   ],
   "note": ""
  },
  {
   "property": "C13",
   "status": "proved",
   "theorems": [
    "C13_accepted_multiple_is_true"
   ],
   "note": ""
  },
  {
   "property": "C14",
   "status": "proved",
   "theorems": [
    "C14_accepts_iff_below_r",
    "C14_multiple_finite",
    "C14_accepts_all_valid_refuted"
   ],
   "note": ""
  },
  {
   "property": "C15",
   "status": "proved",
   "theorems": [
    "C15_accepted_sum_is_true"
   ],
   "note": ""
  },
  {
   "property": "C16",
   "status": "proved",
   "theorems": [
    "C16_accepts_iff",
    "C16_opposite_points_fail",
    "C16_accepts_all_valid_refuted"
   ],
   "note": ""
  },
  {
   "property": "C17",
   "status": "proved",
   "theorems": [
    "C17_legacy_msm_mod_r",
    "C17_legacy_add_mod_r",
    "C17_legacy_msm_any_operand",
    "C17_legacy_add_any_operand",
    "C17_legacy_msm_sound_refuted",
    "C17_legacy_add_sound_refuted"
   ],
   "note": ""
  },
  {
   "property": "C18",
   "status": "proved",
   "theorems": [
    "C18_msm_history",
    "C18_add_history",
    "C18_msm_repeatable_refuted"
   ],
   "note": ""
  },
  {
   "property": "C19",
   "status": "proved",
   "theorems": [
    "C19_Msm1_returns_mod_r",
    "C19_Add1_returns_mod_r",
    "C19_Msm1_on_curve_refuted",
    "C19_Add1_on_curve_refuted",
    "C19_Msm1_kinds",
    "C19_Add1_kinds"
   ],
   "note": ""
  },
  {
   "property": "C20",
   "status": "proved",
   "theorems": [
    "C20_on_curve_check",
    "C20_on_curve_check_compiled_panics",
    "C20_on_curve_var_check",
    "C20_on_curve_var_accepts_unconvertible",
    "C20_on_curve_var_compiled_sound_refuted"
   ],
   "note": ""
  },
  {
   "property": "C21",
   "status": "proved",
   "theorems": [
    "C21_keccak_test_engine",
    "C21_sha256_test_engine",
    "C21_keccak_compiled",
    "C21_sha256_compiled"
   ],
   "note": ""
  },
  {
   "property": "C22",
   "status": "proved",
   "theorems": [
    "C22_instance_hash"
   ],
   "note": ""
  },
  {
   "property": "C23",
   "status": "proved",
   "theorems": [
    "C23_hashes_some_string",
    "C23_instance_bound_refuted"
   ],
   "note": ""
  },
  {
   "property": "C24",
   "status": "proved",
   "theorems": [
    "C24_pack_test_engine",
    "C24_pack_single",
    "C24_pack_empty",
    "C24_pack_compiled",
    "C24_pack_injective",
    "C24_pack_injective_32_refuted"
   ],
   "note": ""
  },
  {
   "property": "C25",
   "status": "proved",
   "theorems": [
    "C25_squeeze",
    "C25_squeeze_panics",
    "C25_encoding_is_be32"
   ],
   "note": ""
  },
  {
   "property": "C26",
   "status": "proved",
   "theorems": [
    "C26_schedule",
    "C26_reads_104"
   ],
   "note": ""
  },
  {
   "property": "C27",
   "status": "proved",
   "theorems": [
    "C27_prefix_determines",
    "C27_binding",
    "C27_transcript_is_chain"
   ],
   "note": ""
  },
  {
   "property": "C28",
   "status": "proved",
   "theorems": [
    "C28_points_checked"
   ],
   "note": ""
  },
  {
   "property": "C29",
   "status": "proved",
   "theorems": [
    "C29_opening"
   ],
   "note": ""
  },
  {
   "property": "C30",
   "status": "proved",
   "theorems": [
    "C30_quotient"
   ],
   "note": ""
  },
  {
   "property": "C31",
   "status": "proved",
   "theorems": [
    "C31_accumulator"
   ],
   "note": ""
  },
  {
   "property": "C32",
   "status": "proved",
   "theorems": [
    "C32_step1_frame",
    "C32_step2_frame",
    "C32_step3_frame"
   ],
   "note": ""
  },
  {
   "property": "C33",
   "status": "proved",
   "theorems": [
    "C33_helpers",
    "C33_unique",
    "C33_points",
    "C33_unconditional_refuted"
   ],
   "note": ""
  },
  {
   "property": "C34",
   "status": "proved",
   "theorems": [
    "C34_g2_points_on_twist",
    "C34_g2_check",
    "C34_g2_installed",
    "C34_g1_installed",
    "C34_g1_panics",
    "C34_pairing_gadget"
   ],
   "note": ""
  },
  {
   "property": "C35",
   "status": "proved",
   "theorems": [
    "C35_not_zero_test_engine",
    "C35_range_test_engine",
    "C35_not_zero_compiled",
    "C35_range_compiled"
   ],
   "note": ""
  },
  {
   "property": "C36",
   "status": "proved",
   "theorems": [
    "C36_pipeline"
   ],
   "note": ""
  },
  {
   "property": "C37",
   "status": "proved",
   "theorems": [
    "C37_aggregator_never_compiles",
    "C37_scalar_mul_never_compiles",
    "C37_add_never_compiles",
    "C37_main_panics",
    "C37_compiled_shape",
    "C37_scalar_mul_kinds",
    "C37_add_kinds"
   ],
   "note": ""
  },
  {
   "property": "C38",
   "status": "proved",
   "theorems": [
    "C38_mod_needs_unregistered_hint",
    "C38_fr_ops_need_unregistered_hint",
    "C38_registered_hints_available",
    "C38_registry",
    "C38_all_hints_registered_refuted"
   ],
   "note": ""
  },
  {
   "property": "C39",
   "status": "proved",
   "theorems": [
    "C39_mul_error_returned",
    "C39_mul_result_stored",
    "C39_mul_add_returns_mul_error",
    "C39_mul_add_drops_add_error",
    "C39_mul_add_errors_are_mul_errors",
    "C39_add_error_propagates_refuted"
   ],
   "note": ""
  },
  {
   "property": "C40",
   "status": "proved",
   "theorems": [
    "C40_boundary_irrelevant",
    "C40_values_modulo_p",
    "C40_too_many_panics"
   ],
   "note": ""
  },
  {
   "property": "C41",
   "status": "proved",
   "theorems": [
    "C41_kyc_test_engine",
    "C41_kyc_compiled",
    "C41_kyc_compiled_circuit",
    "C41_empty_list_rejects"
   ],
   "note": ""
  },
  {
   "property": "C42",
   "status": "proved",
   "theorems": [
    "C42_attributes_replaceable",
    "C42_attributes_replaceable_compiled",
    "C42_level_and_time_ignored",
    "C42_signed_attributes_refuted"
   ],
   "note": ""
  },
  {
   "property": "C43",
   "status": "proved",
   "theorems": [
    "C43_toBytes_never_succeeds",
    "C43_ValueOf_ignores_input"
   ],
   "note": ""
  },
  {
   "property": "C44",
   "status": "proved",
   "theorems": [
    "C44_msm_length_error",
    "C44_msm_no_other_error",
    "C44_msm_sum",
    "C44_msm_no_points",
    "C44_msm_equal_abscissas_rejected"
   ],
   "note": ""
  },
  {
   "property": "C45",
   "status": "proved",
   "theorems": [
    "C45_order",
    "C45_constants",
    "C45_constants_used",
    "C45_lagrange_basis",
    "C45_lagrange_used"
   ],
   "note": ""
  },
  {
   "property": "C46",
   "status": "proved",
   "theorems": [
    "C46_lagrange_frame",
    "C46_lagrange_value",
    "C46_lagrange_accepts"
   ],
   "note": ""
  },
  {
   "property": "C47",
   "status": "proved",
   "theorems": [
    "C47_acceptance"
   ],
   "note": ""
  },
  {
   "property": "C48",
   "status": "proved",
   "theorems": [
    "C48_complete"
   ],
   "note": ""
  },
  {
   "property": "C49",
   "status": "proved",
   "theorems": [
    "C49_padd_is_group_sum",
    "C49_sum_exists",
    "C49_sum_unique",
    "C49_commutative",
    "C49_associative",
    "C49_inverse"
   ],
   "note": ""
  },
  {
   "property": "C50",
   "status": "proved",
   "theorems": [
    "C50_pmul_is_multiple",
    "C50_multiple_exists",
    "C50_multiple_unique",
    "C50_order",
    "C50_generated",
    "C50_additive",
    "C50_distributive",
    "C50_iterated"
   ],
   "note": ""
  },
  {
   "property": "C51",
   "status": "proved",
   "theorems": [
    "C51_accepted_opens",
    "C51_opens_accepted"
   ],
   "note": ""
  },
  {
   "property": "C52",
   "status": "proved",
   "theorems": [
    "C52_right_evaluations_open",
    "C52_wrong_evaluations_fail"
   ],
   "note": ""
  },
  {
   "property": "C53",
   "status": "proved",
   "theorems": [
    "C53_satisfied_rows",
    "C53_violated_row"
   ],
   "note": ""
  },
  {
   "property": "C54",
   "status": "proved",
   "theorems": [
    "C54_sound"
   ],
   "note": ""
  },
  {
   "property": "C55",
   "status": "proved",
   "theorems": [
    "C55_complete"
   ],
   "note": ""
  },
  {
   "property": "C56",
   "status": "proved",
   "theorems": [
    "C56_violated",
    "C56_satisfied"
   ],
   "note": ""
  },
  {
   "property": "C57",
   "status": "proved",
   "theorems": [
    "C57_sound"
   ],
   "note": ""
  },
  {
   "property": "C58",
   "status": "proved",
   "theorems": [
    "C58_complete"
   ],
   "note": ""
  },
  {
   "property": "C59",
   "status": "proved",
   "theorems": [
    "C59_kyc_key_on_curve",
    "C59_verifying_key_on_curve"
   ],
   "note": ""
  },
  {
   "property": "C60",
   "status": "proved",
   "theorems": [
    "C60_sample_verdict"
   ],
   "note": ""
  },
  {
   "property": "C61",
   "status": "proved",
   "theorems": [
    "C61_sample_accepted",
    "C61_sample_pairing"
   ],
   "note": ""
  },
  {
   "property": "C62",
   "status": "proved",
   "theorems": [
    "C62_flipped_rejected",
    "C62_only_pairing"
   ],
   "note": ""
  },
  {
   "property": "C63",
   "status": "proved",
   "theorems": [
    "C63_instance",
    "C63_challenges",
    "C63_step1"
   ],
   "note": ""
  },
  {
   "property": "C64",
   "status": "proved",
   "theorems": [
    "C64_byte_test_engine",
    "C64_byte_compiled"
   ],
   "note": ""
  },
  {
   "property": "C65",
   "status": "proved",
   "theorems": [
    "C65_last_point_unique"
   ],
   "note": ""
  },
  {
   "property": "C66",
   "status": "proved",
   "theorems": [
    "C66_signature_valid",
    "C66_other_hash_invalid",
    "C66_test_accepted",
    "C66_other_hash_rejected"
   ],
   "note": ""
  },
  {
   "property": "C67",
   "status": "proved",
   "theorems": [
    "C67_steps_2_and_3"
   ],
   "note": ""
  },
  {
   "property": "C68",
   "status": "proved",
   "theorems": [
    "C68_TestOnBn254",
    "C68_TestOnBn254_point",
    "C68_TestOnCurve",
    "C68_solved",
    "C68_TestCircuit",
    "C68_TestPairingCheckTestSolve",
    "C68_TestBN254MultiScalarMul",
    "C68_TestMultiScalarMul",
    "C68_TestMsmSolve",
    "C68_TestMsmSolve_zero_values",
    "C68_TestSha2Circuit",
    "C68_TestKeccak256Circuit",
    "C68_TestCheckOnCurveCircuit_passes_always",
    "C68_TestCheckOnCurveCircuit_point"
   ],
   "note": ""
  },
  {
   "property": "C69",
   "status": "proved",
   "theorems": [
    "C69_sum_exists",
    "C69_sum_unique",
    "C69_sum_comm",
    "C69_sum_assoc",
    "C69_sum_negative",
    "C69_GetVerifyCircuitsG2Jac_order",
    "C69_curve_check_implies_order_refuted"
   ],
   "note": ""
  },
  {
   "property": "C70",
   "status": "proved",
   "theorems": [
    "C70_exact",
    "C70_points_canonical"
   ],
   "note": ""
  },
  {
   "property": "C71",
   "status": "proved",
   "theorems": [
    "C71_evaluations_mod_r",
    "C71_evaluations_canonical_refuted"
   ],
   "note": ""
  },
  {
   "property": "C72",
   "status": "proved",
   "theorems": [
    "C72_exact_everywhere",
    "C72_helpers_outside_domain",
    "C72_quotient_free_inside_domain",
    "C72_evaluations_mod_r"
   ],
   "note": ""
  },
  {
   "property": "C73",
   "status": "proved",
   "theorems": [
    "C73_last_challenge_binds",
    "C73_whole_input_determined",
    "C73_sign_not_absorbed",
    "C73_transcript_binds_evaluations_refuted"
   ],
   "note": ""
  },
  {
   "property": "C74",
   "status": "proved",
   "theorems": [
    "C74_surplus_ignored",
    "C74_missing_rejected"
   ],
   "note": ""
  },
  {
   "property": "C75",
   "status": "proved",
   "theorems": [
    "C75_valid_iff_forged",
    "C75_multipliers_suffice",
    "C75_kyc_test_engine",
    "C75_kyc_compiled"
   ],
   "note": ""
  },
  {
   "property": "C76",
   "status": "proved",
   "theorems": [
    "C76_key_order",
    "C76_order",
    "C76_negated_valid",
    "C76_negated_point",
    "C76_coordinate",
    "C76_only_sign",
    "C76_kyc_test_engine",
    "C76_kyc_compiled"
   ],
   "note": ""
  },
  {
   "property": "C77",
   "status": "proved",
   "theorems": [
    "C77_kyc",
    "C77_pairing_compiled",
    "C77_pairing_test_engine",
    "C77_pairing_any_point",
    "C77_TestPairing",
    "C77_keccak",
    "C77_sha256",
    "C77_pairing_unassigned"
   ],
   "note": ""
  }
 ]
}