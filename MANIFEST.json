{
 "claims": [
  {
   "property": "C01",
   "status": "proved",
   "theorems": [
    "C01_query_returns_last_accepted",
    "C01_foreign_authority_rejected",
    "C01_authority_accepted",
    "C01_keeper_never_without_authority"
   ],
   "note": "state machine over all message/query histories"
  },
  {
   "property": "C02",
   "status": "proved",
   "theorems": [
    "C02_keeper_genesis_roundtrip",
    "C02_keeper_restart",
    "C02_export_panics_iff_unset"
   ],
   "note": ""
  },
  {
   "property": "C03",
   "status": "partial",
   "theorems": [
    "C03_module_restart_refuted",
    "C03_module_restart_partial"
   ],
   "note": "refuted: AppModule.InitGenesis discards the imported state and installs the defaults; the partial theorem says it survives exactly when the exported params are the defaults"
  },
  {
   "property": "C04",
   "status": "partial",
   "theorems": [
    "C04_never_overwrites",
    "C04_rows_persist",
    "C04_frame",
    "C04_deliver_error_changes_nothing",
    "C04_success_stores_refuted",
    "C04_wellformed_message_is_a_noop",
    "C04_success_stores_partial"
   ],
   "note": "never-overwrites and frame are proved in full; 'stores what it carried' is refuted by a concrete well-formed message (the handler looks the row up and only errors or continues without inserting); partial: rows present after success"
  },
  {
   "property": "C05",
   "status": "proved",
   "theorems": [
    "C05_filter_blocks_exactly",
    "C05_ante_handle"
   ],
   "note": ""
  },
  {
   "property": "C06",
   "status": "partial",
   "theorems": [
    "C06_callbacks_transparent",
    "C06_channel_calls_transparent_partial",
    "C06_send_packet_transparent_refuted",
    "C06_send_packet_ignores_port"
   ],
   "note": "callbacks are transparent; SendPacket passes the channel as port (refuted for port <> channel)"
  },
  {
   "property": "C07",
   "status": "partial",
   "theorems": [
    "C07_refines_ordered_set_partial",
    "C07_link_appends",
    "C07_unique_ids_refuted",
    "C07_unlink_never_panics_refuted",
    "C07_unlink_removes_all_refuted"
   ],
   "note": "partial: ordered-set refinement for histories without duplicate linking; uniqueness, no-panic and remove-all are refuted by concrete histories"
  },
  {
   "property": "C08",
   "status": "proved",
   "theorems": [
    "C08_counter_is_running_max",
    "C08_counter_never_decreases",
    "C08_warning_iff_replay"
   ],
   "note": ""
  },
  {
   "property": "C09",
   "status": "proved",
   "theorems": [
    "C09_phone_did",
    "C09_email_did",
    "C09_phone_equals",
    "C09_email_equals",
    "C09_did_binds_digest",
    "C09_methods_disjoint",
    "C09_hex_injective"
   ],
   "note": ""
  },
  {
   "property": "C10",
   "status": "proved",
   "theorems": [
    "C10_next_after_history",
    "C10_finished_is_absorbing",
    "C10_result_only_when_complete",
    "C10_alice_sign_no_result"
   ],
   "note": ""
  },
  {
   "property": "C11",
   "status": "proved",
   "theorems": [
    "C11_run_protocol_is_exchange",
    "C11_run_protocol_terminates"
   ],
   "note": ""
  },
  {
   "property": "C12",
   "status": "partial",
   "theorems": [
    "C12_strict_roundtrip",
    "C12_strict_encode_other_version",
    "C12_strict_decode_other_version",
    "C12_refresh_roundtrip",
    "C12_refresh_decode_other_version_partial",
    "C12_refresh_other_version_refuted",
    "C12_labels_ignored"
   ],
   "note": "strict codecs proved; refresh codecs accept every version above 200 (refuted), the rest is partial"
  },
  {
   "property": "C13",
   "status": "partial",
   "theorems": [
    "C13_roundtrip",
    "C13_length",
    "C13_too_large_keeps_high_bytes",
    "C13_out_of_range_refuted"
   ],
   "note": "round trip and length proved for every in-range value; out-of-range values are silently encoded as their high bytes (refuted)"
  },
  {
   "property": "C14",
   "status": "proved",
   "theorems": [
    "C14_roundtrip",
    "C14_decode_encode",
    "C14_large_r_overwrites_v_refuted"
   ],
   "note": "round trip in both directions; the _refuted theorem shows the bound on R cannot be dropped"
  },
  {
   "property": "C15",
   "status": "partial",
   "theorems": [
    "C15_marshal_roundtrip",
    "C15_uncompressed_roundtrip",
    "C15_uncompressed_sound",
    "C15_binary_length_checked_refuted",
    "C15_neg",
    "C15_neg_identity_refuted"
   ],
   "note": "round trips proved; the binary decoder's missing length/curve check and Neg of the identity are refuted"
  },
  {
   "property": "C16",
   "status": "proved",
   "theorems": [
    "C16_reverse",
    "C16_hex_string_decodes",
    "C16_int2octets",
    "C16_be_n_meaning",
    "C16_bits2octets",
    "C16_hash_to_int",
    "C16_bytesub_no_repeat",
    "C16_bytesub_bytes"
   ],
   "note": ""
  },
  {
   "property": "C17",
   "status": "partial",
   "theorems": [
    "C17_read_standard_partial",
    "C17_every_length_refuted",
    "C17_seed_concatenation",
    "C17_seed_standard",
    "C17_reseed_standard",
    "C17_history_partial"
   ],
   "note": "multiple-of-hash-size lengths give the standard stream; every other length panics (refuted, with an iff)"
  },
  {
   "property": "C18",
   "status": "proved",
   "theorems": [
    "C18_roundtrip",
    "C18_key_size",
    "C18_is_rfc5297"
   ],
   "note": ""
  },
  {
   "property": "C19",
   "status": "proved",
   "theorems": [
    "C19_only_encryptions_accepted",
    "C19_tampered_not_same_plaintext",
    "C19_changed_tag_rejected",
    "C19_short_rejected"
   ],
   "note": ""
  },
  {
   "property": "C20",
   "status": "proved",
   "theorems": [
    "C20_cmac_is_rfc4493",
    "C20_cmac_long_is_cmac_of_xorend",
    "C20_doubling"
   ],
   "note": ""
  },
  {
   "property": "C21",
   "status": "partial",
   "theorems": [
    "C21_roundtrip_refuted",
    "C21_expected_layout_partial"
   ],
   "note": "refuted as written (concrete counterexample in the theorem); the partial theorem is the round trip for the layout the two functions would need to share"
  },
  {
   "property": "C22",
   "status": "proved",
   "theorems": [
    "C22_combine_recovers_secret",
    "C22_combine_points_recovers",
    "C22_feldman_pedersen_combine",
    "C22_lagrange_coeffs",
    "C22_zero_share_rejected"
   ],
   "note": "for every field with 1..255 distinct and non-zero; also LagrangeCoeffs for every map iteration order"
  },
  {
   "property": "C23",
   "status": "proved",
   "theorems": [
    "C23_combine_accepts_iff",
    "C23_combine_points_accepts_iff",
    "C23_combine_never_panics",
    "C23_new_shamir_iff"
   ],
   "note": ""
  },
  {
   "property": "C24",
   "status": "proved",
   "theorems": [
    "C24_every_secret_fits",
    "C24_view_independent_of_secret"
   ],
   "note": ""
  },
  {
   "property": "C25",
   "status": "proved",
   "theorems": [
    "C25_verify_iff",
    "C25_accepts_exactly_dealt",
    "C25_dealt_shares_accepted",
    "C25_verified_shares_combine",
    "C25_v1_verify_iff",
    "C25_v1_accepts_exactly_dealt"
   ],
   "note": ""
  },
  {
   "property": "C26",
   "status": "proved",
   "theorems": [
    "C26_v1_split",
    "C26_new_pedersen_iff",
    "C26_dealt_shares_accepted",
    "C26_binding",
    "C26_hiding",
    "C26_blind_identifier_ignored",
    "C26_v1_verify_iff",
    "C26_v1_binding",
    "C26_v1_zero_blinding_refused"
   ],
   "note": ""
  },
  {
   "property": "C27",
   "status": "proved",
   "theorems": [
    "C27_combine_recovers",
    "C27_exact_secret_iff",
    "C27_rest_ignored",
    "C27_repeated_identifier_refused",
    "C27_bad_input_refused",
    "C27_add",
    "C27_add_homomorphic",
    "C27_compute_l",
    "C27_leading_zero_lost_refuted"
   ],
   "note": "the _refuted theorem shows the 'no leading zero byte' condition cannot be dropped"
  },
  {
   "property": "C28",
   "status": "proved",
   "theorems": [
    "C28_dkg_agreement",
    "C28_dkg_shares_combine",
    "C28_honest_round2_succeeds"
   ],
   "note": ""
  },
  {
   "property": "C29",
   "status": "partial",
   "theorems": [
    "C29_round2_success_implies_consistent",
    "C29_share_matches_commitments_partial",
    "C29_empty_commitments_panic",
    "C29_foreign_share_accepted_refuted"
   ],
   "note": "refuted: Round2 looks the commitments up under the sender's key but never compares the identifier inside the received share with the receiver's own (C29_foreign_share_accepted_refuted gives an accepted run with a share that is off the committed polynomials); partial: success implies consistency at the share's own identifier, and the share matches when the identifier is the receiver's"
  },
  {
   "property": "C30",
   "status": "partial",
   "theorems": [
    "C30_returned_signature_verifies",
    "C30_bad_share_rejected",
    "C30_nonces_used_once",
    "C30_more_cosigners_than_threshold_refuted",
    "C30_honest_round2_succeeds",
    "C30_honest_signing",
    "C30_sign_sensitive_challenge_refuted"
   ],
   "note": "proved for curves whose challenge does not depend on the sign of R; refuted for two configurations the API accepts: more cosigners than the threshold (SignRound2 never succeeds) and a challenge that changes with the sign of R (SignRound3 refuses the honest run)"
  },
  {
   "property": "C31",
   "status": "partial",
   "theorems": [
    "C31_honest_round2_succeeds",
    "C31_dkg_agreement",
    "C31_shares_combine",
    "C31_round4_value",
    "C31_public_share_refuted",
    "C31_round2_checks",
    "C31_round3_checks",
    "C31_share_matches_verifiers"
   ],
   "note": "agreement on the public key and interpolation of the secret shares are proved; the third clause is refuted: Round4 publishes a wrong public share in an honest run (C31_public_share_refuted); C31_round4_value says what it does publish"
  },
  {
   "property": "C32",
   "status": "partial",
   "theorems": [
    "C32_aggregate_verifies",
    "C32_tsign_panics_iff",
    "C32_partial_valid",
    "C32_verify_iff",
    "C32_mixed_nonces_refused",
    "C32_identifier_256_refuted",
    "C32_share_bytes_roundtrip",
    "C32_reconstruct",
    "C32_ge_add",
    "C32_nonvacuous"
   ],
   "note": "proved for identifiers up to 255; refuted for identifiers that are multiples of 256, which TSign truncates to the byte 0 (C32_identifier_256_refuted)"
  },
  {
   "property": "C33",
   "status": "partial",
   "theorems": [
    "C33_small_identifier_partial",
    "C33_identifier_16_refuted"
   ],
   "note": "refuted: VerifyVSS truncates powers of the identifier to a byte, so an honest share of holder 16 with threshold 3 is refused; partial: exact whenever id^(t-1) < 256"
  },
  {
   "property": "C34",
   "status": "proved",
   "theorems": [
    "C34_verify_iff",
    "C34_sign_verifies",
    "C34_unique",
    "C34_other_message",
    "C34_bad_input_refused",
    "C34_aggregate_is_sum",
    "C34_aggregate_order",
    "C34_aggregate_verify_iff",
    "C34_aggregate_complete",
    "C34_aggregate_refused",
    "C34_fast_aggregate_iff",
    "C34_fast_aggregate_constituent",
    "C34_rogue_key",
    "C34_pop_iff",
    "C34_pop_complete",
    "C34_pop_tags_differ",
    "C34_aug_complete",
    "C34_aug_iff",
    "C34_aug_injective",
    "C34_aug_aggregate_iff"
   ],
   "note": "usual_bls and (groups exchanged) tiny_bls; bilinear non-degenerate pairing; hash-to-curve arbitrary, points outside the subgroup represented"
  },
  {
   "property": "C35",
   "status": "partial",
   "theorems": [
    "C35_combine_iff",
    "C35_threshold_signature",
    "C35_one_short",
    "C35_zero_identifier_refuted",
    "C35_refused",
    "C35_key_round_trip",
    "C35_key_decodes_only_marshalled",
    "C35_share_round_trip"
   ],
   "note": "threshold signatures proved for every subset and order; 'zero identifiers are refused' is refuted (identifier 0 is accepted and overrides the rest); one share short is accepted but wrong (C35_one_short)"
  },
  {
   "property": "C36",
   "status": "partial",
   "theorems": [
    "C36_verify_iff",
    "C36_sign_verify_iff",
    "C36_sign_verifies",
    "C36_sign_succeeds",
    "C36_generator_range",
    "C36_refusals",
    "C36_other_length_refused_refuted",
    "C36_nonvacuous"
   ],
   "note": "every signature of Sign verifies (C36_sign_verifies, exact condition in C36_sign_verify_iff); 'another length is refused' is refuted: with spare generators the list with message 0 appended verifies too (C36_other_length_refused_refuted)"
  },
  {
   "property": "C37",
   "status": "partial",
   "theorems": [
    "C37_two_lists_relation_partial",
    "C37_generators_all_equal",
    "C37_same_sum_iff",
    "C37_permutation_refuted",
    "C37_forgery_refuted",
    "C37_states_differ"
   ],
   "note": "refuted: Get hashes msgg.state instead of the copy carrying the index, so all message generators equal h0; every permutation verifies and from one signature anyone computes a signature on any list (C37_forgery_refuted). Partial: two lists under one signature are a linear relation between the generators"
  },
  {
   "property": "C38",
   "status": "proved",
   "theorems": [
    "C38_sig_pok_iff",
    "C38_complete",
    "C38_answers_every_challenge",
    "C38_special_soundness",
    "C38_disclose_anything_refuted",
    "C38_nonvacuous"
   ],
   "note": "completeness for every disclosure pattern, map order, transcript and challenge; special soundness added. C38_disclose_anything_refuted shows what the equal generators (C37) cost; it does not contradict the English property, which is about honest proofs"
  },
  {
   "property": "C39",
   "status": "proved",
   "theorems": [
    "C39_issued_equation",
    "C39_unblinded_iff",
    "C39_blind_issuance",
    "C39_index_length_panics",
    "C39_context_special_soundness",
    "C39_nonvacuous"
   ],
   "note": "complete for every split and map order with the generators Init makes (the order would matter with distinct generators); for a key index equal to the length both sides panic (C39_index_length_panics)"
  },
  {
   "property": "C40",
   "status": "proved",
   "theorems": [
    "C40_complete",
    "C40_prove_fails_iff",
    "C40_verify_iff",
    "C40_special_soundness",
    "C40_binding",
    "C40_commit_opens",
    "C40_commit_binds",
    "C40_wrong_commitment_refused"
   ],
   "note": ""
  },
  {
   "property": "C41",
   "status": "proved",
   "theorems": [
    "C41_with_elements",
    "C41_order_independent",
    "C41_batches",
    "C41_one_at_a_time",
    "C41_add_remove",
    "C41_remove_add",
    "C41_remove_member",
    "C41_remove_fails",
    "C41_update_value",
    "C41_update_one_at_a_time"
   ],
   "note": ""
  },
  {
   "property": "C42",
   "status": "proved",
   "theorems": [
    "C42_verify_iff",
    "C42_issued_verifies",
    "C42_unique",
    "C42_member_witness",
    "C42_issuing_ignores_membership"
   ],
   "note": ""
  },
  {
   "property": "C43",
   "status": "partial",
   "theorems": [
    "C43_batch_update",
    "C43_updated_witness_verifies",
    "C43_deleted_fails",
    "C43_empty_batch_refuted",
    "C43_nil_slice_fails",
    "C43_multi_equals_sequence",
    "C43_multi_deleted_fails"
   ],
   "note": "proved for batches with at least one change; refuted for an empty batch, on which the update panics (C43_empty_batch_refuted)"
  },
  {
   "property": "C44",
   "status": "proved",
   "theorems": [
    "C44_complete",
    "C44_special_soundness"
   ],
   "note": ""
  },
  {
   "property": "C45",
   "status": "proved",
   "theorems": [
    "C45_key_generation",
    "C45_encrypt_iff",
    "C45_decrypt_encrypt",
    "C45_decrypt_iff",
    "C45_every_ciphertext",
    "C45_bad_nonce",
    "C45_equal_primes_accepted"
   ],
   "note": "unbounded integers; safe/any distinct primes, gcd condition as in the statement"
  },
  {
   "property": "C46",
   "status": "proved",
   "theorems": [
    "C46_add",
    "C46_mul",
    "C46_ranges"
   ],
   "note": ""
  },
  {
   "property": "C47",
   "status": "proved",
   "theorems": [
    "C47_challenges",
    "C47_complete",
    "C47_prove_succeeds",
    "C47_verify_iff",
    "C47_square_factor",
    "C47_short_proof_panics"
   ],
   "note": "completeness for every modulus and every challenge expansion"
  },
  {
   "property": "C48",
   "status": "proved",
   "theorems": [
    "C48_new_element_iff",
    "C48_ring_operations",
    "C48_division",
    "C48_other_field_panics",
    "C48_eq_iff",
    "C48_bytes",
    "C48_ring_laws"
   ],
   "note": ""
  },
  {
   "property": "C49",
   "status": "proved",
   "theorems": [
    "C49_dkg_one_key",
    "C49_dealer_one_key",
    "C49_dkg_completes",
    "C49_commitment_checked",
    "C49_proof_checked"
   ],
   "note": "honest runs (any randomness), the dealer, liveness, and what each party checks of a malicious peer"
  },
  {
   "property": "C50",
   "status": "proved",
   "theorems": [
    "C50_outcomes",
    "C50_correct",
    "C50_keys",
    "C50_instances_separate",
    "C50_batch_size",
    "C50_other_key_differs",
    "C50_transfer",
    "C50_counts_checked",
    "C50_round5_iff",
    "C50_round6_iff",
    "C50_short_messages_panic",
    "C50_choice_hidden"
   ],
   "note": "honest runs: exact outcomes and correctness; per-round iff for arbitrary peers; short messages panic"
  },
  {
   "property": "C51",
   "status": "proved",
   "theorems": [
    "C51_round1_succeeds",
    "C51_check_passes",
    "C51_completes",
    "C51_correct",
    "C51_sender_shares",
    "C51_slots_separate",
    "C51_check_iff",
    "C51_zero_bit_ignores_tau",
    "C51_code_parameters"
   ],
   "note": "honest runs with any seeds satisfying C50's contract"
  },
  {
   "property": "C52",
   "status": "proved",
   "theorems": [
    "C52_accept",
    "C52_round1_succeeds",
    "C52_completes",
    "C52_correct"
   ],
   "note": "honest runs; output shares add up to alpha*beta and the check passes"
  },
  {
   "property": "C53",
   "status": "proved",
   "theorems": [
    "C53_output_valid",
    "C53_correct"
   ],
   "note": "output validity holds against any Alice; correctness for honest sessions of any key history"
  },
  {
   "property": "C54",
   "status": "partial",
   "theorems": [
    "C54_below_2_255_partial",
    "C54_high_s_kept",
    "C54_refuted"
   ],
   "note": "refuted: only bit 255 of S is inspected, so for every group order above 2^255 (secp256k1's included) some session keeps a high S; partial: holds for orders below 2^255"
  },
  {
   "property": "C55",
   "status": "proved",
   "theorems": [
    "C55_refresh_keeps_key",
    "C55_history",
    "C55_shares_change",
    "C55_refresh_completes",
    "C55_refreshed_keys_sign"
   ],
   "note": "any history of dkg/deal followed by any number of refreshes"
  },
  {
   "property": "C56",
   "status": "proved",
   "theorems": [
    "C56_honest_proof_verifies",
    "C56_prover_succeeds",
    "C56_complete",
    "C56_commitment",
    "C56_prover_refuses",
    "C56_verify_equation",
    "C56_example_usable",
    "C56_example"
   ],
   "note": "acceptance for every commitment is decided exactly (equal to the commitment to the vectors); success of the prover under the assumption that every hash challenge is a nonzero scalar; length below 2^63"
  },
  {
   "property": "C57",
   "status": "partial",
   "theorems": [
    "C57_encoded_value_verifies",
    "C57_other_value_rejected",
    "C57_prover_succeeds",
    "C57_range_proof_verifies",
    "C57_any_proof_verifies",
    "C57_big_endian_refuted",
    "C57_short_panics",
    "C57_example",
    "C57_big_endian_example_refuted",
    "C57_verify_equation",
    "C57_challenges_exist",
    "C57_transcript_binds"
   ],
   "note": "proved for curves with little-endian scalars (ed25519, pallas), n = 2^k from 2 to 256; refuted for big-endian curves (k256, p256, bls12381, bls12377): every nonzero value is rejected for n <= 128; n < 2 panics"
  },
  {
   "property": "C58",
   "status": "partial",
   "theorems": [
    "C58_refuses_above_partial",
    "C58_batch_refuses_above_partial",
    "C58_boundary_refuted",
    "C58_example_refuted"
   ],
   "note": "values above 2^n are refused; refuted at the boundary: v = 2^n is accepted by Prove, which returns a proof the verifier rejects"
  },
  {
   "property": "C59",
   "status": "partial",
   "theorems": [
    "C59_batch_verifies",
    "C59_any_batch_proof_verifies",
    "C59_big_endian_refuted",
    "C59_single_panics",
    "C59_example"
   ],
   "note": "proved for little-endian curves; refuted for big-endian ones; a batch of one panics"
  },
  {
   "property": "C60",
   "status": "partial",
   "theorems": [
    "C60_sum_of_products",
    "C60_pallas_sum_of_products",
    "C60_native_sum_of_products",
    "C60_unequal_lengths_nil",
    "C60_pallas_unequal_lengths_refuted",
    "C60_empty",
    "C60_bls12377_empty_refuted",
    "C60_field_scalars",
    "C60_example"
   ],
   "note": "all three implementations proved for all lists of 256-bit scalars; pallas returns a non-nil Point without value for unequal lengths, bls12377 panics on empty lists; ed25519 delegates to filippo.io/edwards25519, not modelled"
  },
  {
   "property": "C61",
   "status": "proved",
   "theorems": [
    "C61_result_is_block",
    "C61_product",
    "C61_determined",
    "C61_commutative",
    "C61_bilinear",
    "C61_associative"
   ],
   "note": "model of the interleaved-word multiplication equals the polynomial product mod the reduction polynomial"
  },
  {
   "property": "C62",
   "status": "proved",
   "theorems": [
    "C62_sign_compact"
   ],
   "note": ""
  },
  {
   "property": "C63",
   "status": "proved",
   "theorems": [
    "C63_ct_eq",
    "C63_in_zm",
    "C63_ring",
    "C63_inv"
   ],
   "note": ""
  },
  {
   "property": "C64",
   "status": "partial",
   "theorems": [
    "C64_hash_binds",
    "C64_fiat_shamir_binds_partial",
    "C64_fiat_shamir_binds_sign_refuted",
    "C64_nil_refused"
   ],
   "note": "binding proved up to sign; FiatShamir drops the sign of its inputs (refuted)"
  },
  {
   "property": "C65",
   "status": "proved",
   "theorems": [
    "C65_expand_is_rfc9380",
    "C65_expand_outcome",
    "C65_first_input_injective",
    "C65_long_dst_refuted",
    "C65_hash_to_field_range",
    "C65_hash_to_field_blocks",
    "C65_hash_to_field_total"
   ],
   "note": "the _refuted theorem shows the 255-byte bound on the DST cannot be dropped"
  },
  {
   "property": "C66",
   "status": "proved",
   "theorems": [
    "C66_commit_opens",
    "C66_open_only_committed",
    "C66_open_wrong_length"
   ],
   "note": ""
  },
  {
   "property": "C67",
   "status": "partial",
   "theorems": [
    "C67_head_rows_bound",
    "C67_first_message_bound",
    "C67_tail_rows_unbound"
   ],
   "note": "refuted: only the first 256 rows of tau enter the transcript, rows from 256 on can be changed freely without changing the challenge"
  },
  {
   "property": "C68",
   "status": "partial",
   "theorems": [
    "C68_zero_key_accepted"
   ],
   "note": "refuted: a peer with key share 0 and a valid proof is accepted and the joint key is the identity"
  },
  {
   "property": "C69",
   "status": "partial",
   "theorems": [
    "C69_ipp_verifier_answers_partial",
    "C69_ipp_many_rounds_refuted",
    "C69_range_verifier_panics_refuted"
   ],
   "note": "inner product verifier: answers for fewer than 63 rounds, panics from 63; range verifier panics when the number of rounds does not fit n"
  },
  {
   "property": "C70",
   "status": "proved",
   "theorems": [
    "C70_k256_add",
    "C70_k256_double",
    "C70_k256_sub",
    "C70_k256_closed",
    "C70_p256_add",
    "C70_p256_double",
    "C70_p256_sub",
    "C70_p256_closed",
    "C70_neg",
    "C70_applies",
    "C70_p256_applies"
   ],
   "note": ""
  },
  {
   "property": "C71",
   "status": "proved",
   "theorems": [
    "C71_add",
    "C71_double",
    "C71_neg",
    "C71_sub",
    "C71_identity",
    "C71_is_on_curve",
    "C71_g1_mul12",
    "C71_applies"
   ],
   "note": ""
  },
  {
   "property": "C72",
   "status": "proved",
   "theorems": [
    "C72_add",
    "C72_double",
    "C72_neg",
    "C72_sub",
    "C72_closed",
    "C72_is_on_curve"
   ],
   "note": ""
  },
  {
   "property": "C73",
   "status": "proved",
   "theorems": [
    "C73_k256_mul",
    "C73_p256_mul",
    "C73_bls_mul",
    "C73_pallas_mul",
    "C73_scalars_add",
    "C73_scalars_mod"
   ],
   "note": ""
  },
  {
   "property": "C74",
   "status": "proved",
   "theorems": [
    "C74_equal",
    "C74_is_identity",
    "C74_pallas_equal",
    "C74_pallas_is_identity"
   ],
   "note": ""
  },
  {
   "property": "C75",
   "status": "proved",
   "theorems": [
    "C75_to_affine",
    "C75_native_on_curve",
    "C75_rhs",
    "C75_native_set",
    "C75_native_round_trip",
    "C75_g1_set"
   ],
   "note": ""
  },
  {
   "property": "C76",
   "status": "proved",
   "theorems": [
    "C76_mul_by_x",
    "C76_clear_cofactor",
    "C76_subgroup",
    "C76_cleared_in_subgroup"
   ],
   "note": ""
  },
  {
   "property": "C77",
   "status": "proved",
   "theorems": [
    "C77_k256_group",
    "C77_p256_group",
    "C77_bls_group",
    "C77_pallas_group"
   ],
   "note": ""
  },
  {
   "property": "C78",
   "status": "partial",
   "theorems": [
    "C78_add",
    "C78_sub",
    "C78_add_to_right_operand",
    "C78_alias_refuted"
   ],
   "note": "proved when the receiver is neither operand or is the left one; refuted for the right operand: Add copies the left operand into the receiver first, so p.Add(q, p) leaves q + q in p (C78_add_to_right_operand, C78_alias_refuted)"
  },
  {
   "property": "C80",
   "status": "proved",
   "theorems": [
    "C80_every_canonical_array_is_one_residue",
    "C80_every_residue_has_one_array",
    "C80_add",
    "C80_double",
    "C80_sub",
    "C80_mul",
    "C80_square",
    "C80_zero",
    "C80_one",
    "C80_set_uint64",
    "C80_cmove"
   ],
   "note": ""
  },
  {
   "property": "C81",
   "status": "partial",
   "theorems": [
    "C81_neg",
    "C81_neg_bls_scalar_nonzero",
    "C81_neg_bls_scalar_zero_refuted"
   ],
   "note": "holds on four fields and on non-zero BLS12-381 scalars; refuted for the BLS12-381 scalar 0: -0 is the modulus, which is not zero to IsZero, Equal and Invert"
  },
  {
   "property": "C82",
   "status": "proved",
   "theorems": [
    "C82_set_bytes_accepts_exactly_the_canonical_encodings",
    "C82_bytes_is_the_value",
    "C82_bytes_then_set_bytes_is_the_element",
    "C82_set_bytes_then_bytes_is_the_encoding",
    "C82_set_bytes_wide_reduces",
    "C82_set_big_int_reduces",
    "C82_big_int_is_the_value",
    "C82_raw_and_set_limbs"
   ],
   "note": ""
  },
  {
   "property": "C83",
   "status": "partial",
   "theorems": [
    "C83_equal",
    "C83_is_zero_is_one",
    "C83_cmp_orders_the_montgomery_residues",
    "C83_cmp_is_not_the_numeric_order_refuted"
   ],
   "note": "equality tests proved; Cmp is 0 exactly on equal values, but orders Montgomery residues, not values (refuted)"
  },
  {
   "property": "C84",
   "status": "proved",
   "theorems": [
    "C84_exp",
    "C84_invert",
    "C84_sqrt"
   ],
   "note": ""
  },
  {
   "property": "C85",
   "status": "proved",
   "theorems": [
    "C85_pasta_add",
    "C85_pasta_double",
    "C85_pasta_sub",
    "C85_pasta_neg",
    "C85_pasta_mul",
    "C85_pasta_square",
    "C85_pasta_constants",
    "C85_pasta_cmove",
    "C85_pasta_exp",
    "C85_pasta_invert",
    "C85_pasta_sqrt"
   ],
   "note": ""
  },
  {
   "property": "C86",
   "status": "partial",
   "theorems": [
    "C86_pasta_bytes_is_the_value",
    "C86_pasta_big_int_and_raw",
    "C86_pasta_set_bytes_value",
    "C86_pasta_set_bytes_accepts",
    "C86_pasta_roundtrip_partial",
    "C86_pasta_set_bytes_wide_reduces",
    "C86_pasta_set_big_int",
    "C86_pasta_encodings_refuted"
   ],
   "note": "exact set of accepted strings proved; refuted as stated: SetBytes accepts non-canonical strings and refuses the encodings of a block of valid elements (for instance -2^63), where SetBigInt silently leaves the receiver unchanged"
  },
  {
   "property": "C87",
   "status": "partial",
   "theorems": [
    "C87_pasta_equal",
    "C87_pasta_is_zero_is_one",
    "C87_pasta_is_odd",
    "C87_pasta_cmp_refuted"
   ],
   "note": "Equal, IsZero, IsOne, IsOdd proved; Cmp refuted (limb differences of 2^63 and more are misread)"
  },
  {
   "property": "C79",
   "status": "proved",
   "theorems": [
    "C79_add",
    "C79_double",
    "C79_sub",
    "C79_neg",
    "C79_mul",
    "C79_square",
    "C79_mul_by_3b",
    "C79_constants",
    "C79_cmove",
    "C79_cneg",
    "C79_exp",
    "C79_pow",
    "C79_equal",
    "C79_is_zero_is_one",
    "C79_cmp",
    "C79_cmp_is_not_the_numeric_order_refuted",
    "C79_lexicographically_largest",
    "C79_sgn0_is_the_parity",
    "C79_invert",
    "C79_sqrt",
    "C79_bytes_is_the_value",
    "C79_big_int_and_raw",
    "C79_set_bytes",
    "C79_roundtrip",
    "C79_set_bytes_wide_reduces",
    "C79_set_big_int"
   ],
   "note": "all methods of fp.go except Hash and Random; remark: Cmp orders the stored Montgomery arrays, not the values (C79_cmp and the refutation of the numeric reading); CNeg with choice 0 gives the receiver's old value, not the argument"
  },
  {
   "property": "C89",
   "status": "partial",
   "theorems": [
    "C89_encodes",
    "C89_identity_encodes",
    "C89_decodes",
    "C89_accepts",
    "C89_roundtrip",
    "C89_decode_then_encode",
    "C89_no_point_is_accepted_refuted",
    "C89_p256_identity_refuted",
    "C89_k256_identity_roundtrip",
    "C89_example"
   ],
   "note": "proved: format, acceptance set, value and both compositions for every curve point (C89_*). Refuted parts: an x without a point decodes to the identity instead of an error; on P-256 the identity encodes to 02||0, which decodes to (0, sqrt b)"
  },
  {
   "property": "C90",
   "status": "partial",
   "theorems": [
    "C90_encodes",
    "C90_accepts",
    "C90_decodes",
    "C90_roundtrip",
    "C90_decode_then_encode",
    "C90_identity_refuted",
    "C90_off_curve_refuted"
   ],
   "note": "proved: format, acceptance set, value and both compositions for every non-identity pair. Refuted parts: pairs off the curve are accepted; the identity decodes to the pair (0,0)"
  },
  {
   "property": "C91",
   "status": "partial",
   "theorems": [
    "C91_every_triple_is_one_point",
    "C91_equal",
    "C91_is_identity",
    "C91_neg",
    "C91_big_int",
    "C91_is_on_curve",
    "C91_set",
    "C91_set_then_big_int",
    "C91_generator_and_identity",
    "C91_is_negative_splits_pairs",
    "C91_is_negative_is_not_the_sign_refuted"
   ],
   "note": "everything proved except the reading of IsNegative: it is the parity of the Montgomery residue (splits P and -P, C91_is_negative_splits_pairs) and disagrees with the sign byte (refuted); IsOnCurve is false at infinity"
  },
  {
   "property": "C88",
   "status": "proved",
   "theorems": [
    "C88_sum_is_a_function",
    "C88_group_laws",
    "C88_multiple_is_a_function",
    "C88_multiples_add",
    "C88_multiples_mul",
    "C88_add",
    "C88_double",
    "C88_neg",
    "C88_sub",
    "C88_mul",
    "C88_example"
   ],
   "note": "no hypothesis on the curve: primality of p, n and the absence of a point of order two are proved by certificates; the specification (CurveSpec) is chords and tangents over the integers modulo p"
  },
  {
   "property": "C92",
   "status": "partial",
   "theorems": [
    "C92_no_roots",
    "C92_fp2",
    "C92_fp6",
    "C92_fp12",
    "C92_invert2",
    "C92_invert6",
    "C92_invert12",
    "C92_equal",
    "C92_is_one6",
    "C92_is_one12",
    "C92_is_one_refuted"
   ],
   "note": "All operations proved at all three levels on limb arrays; IsOne of fp6/fp12/Gt is characterised exactly (C92_is_one6, C92_is_one12) and refuted (C92_is_one_refuted)."
  },
  {
   "property": "C93",
   "status": "proved",
   "theorems": [
    "C93_frobenius2",
    "C93_frobenius6",
    "C93_frobenius12",
    "C93_conjugate",
    "C93_order"
   ],
   "note": "Constants and exponents checked inside the proofs."
  },
  {
   "property": "C94",
   "status": "proved",
   "theorems": [
    "C94_sqrt"
   ],
   "note": ""
  },
  {
   "property": "C95",
   "status": "partial",
   "theorems": [
    "C95_add_double",
    "C95_square",
    "C95_neg_sub",
    "C95_is_one",
    "C95_mul_refuted",
    "C95_neg_square_refuted"
   ],
   "note": "Add, Double proved; Neg, Sub, Square, IsOne proved on the cyclotomic subgroup and Square characterised exactly; scalar Mul refuted (always zero), Neg/Sub/Square refuted outside the subgroup."
  },
  {
   "property": "C96",
   "status": "proved",
   "theorems": [
    "C96_final_exponentiation",
    "C96_final_zero",
    "C96_order",
    "C96_multiplicative",
    "C96_subfield"
   ],
   "note": ""
  },
  {
   "property": "C97",
   "status": "proved",
   "theorems": [
    "C97_product",
    "C97_order",
    "C97_identity",
    "C97_negation",
    "C97_range",
    "C97_check",
    "C97_ate",
    "C97_nonzero",
    "C97_cancel"
   ],
   "note": "Bilinearity of the ate pairing itself is not part of the statement and is not proved: it would need the theory of divisors on the curve."
  },
  {
   "property": "C98",
   "status": "proved",
   "theorems": [
    "C98_doubling",
    "C98_addition"
   ],
   "note": ""
  },
  {
   "property": "C99",
   "status": "proved",
   "theorems": [
    "C99_g1_curve",
    "C99_g1",
    "C99_g2_curve",
    "C99_g2"
   ],
   "note": ""
  },
  {
   "property": "C100",
   "status": "proved",
   "theorems": [
    "C100_g1_generator",
    "C100_g2_generator",
    "C100_g1_multiples",
    "C100_g2_multiples",
    "C100_pairing"
   ],
   "note": "Order by an addition chain with slope certificates (tools/gen_blscert.py) checked in the kernel, primality of r from PrimeBls."
  },
  {
   "property": "C101",
   "status": "proved",
   "theorems": [
    "C101_psi",
    "C101_psi_add",
    "C101_psi2",
    "C101_psi_char",
    "C101_clear",
    "C101_clear_add",
    "C101_subgroup",
    "C101_multiples"
   ],
   "note": "That ClearCofactor sends every point of the curve into the subgroup needs the number of points of the twist over Fp2 and is not part of the statement."
  },
  {
   "property": "C102",
   "status": "partial",
   "theorems": [
    "C102_g1_form",
    "C102_g1_accepts",
    "C102_g1_roundtrip",
    "C102_g1_canonical",
    "C102_g1_infinity_refuted",
    "C102_g2_form",
    "C102_g2_accepts",
    "C102_g2_roundtrip",
    "C102_g2_canonical",
    "C102_g2_infinity_refuted"
   ],
   "note": "All proved, except uniqueness of encodings at the identity, which fails: FromCompressed accepts any string whose two top bits are set (C102_g1_infinity_refuted, C102_g2_infinity_refuted)."
  },
  {
   "property": "C103",
   "status": "partial",
   "theorems": [
    "C103_g1_form",
    "C103_g1_accepts",
    "C103_g1_roundtrip",
    "C103_g1_canonical",
    "C103_g1_flags_refuted",
    "C103_g2_form",
    "C103_g2_accepts",
    "C103_g2_roundtrip",
    "C103_g2_canonical",
    "C103_g2_flags_refuted"
   ],
   "note": "Acceptance is proved as the code has it; strictness fails: the compressed and sort flags of the first byte are ignored, so a point has four encodings (C103_g1_flags_refuted, C103_g2_flags_refuted), and any string with the infinity flag is the identity."
  },
  {
   "property": "C104",
   "status": "partial",
   "theorems": [
    "C104_g1_big_int",
    "C104_g1_set",
    "C104_g1_roundtrip",
    "C104_g2_big_int_refuted",
    "C104_g2_roundtrip_refuted",
    "C104_g2_set"
   ],
   "note": "Proved for G1. For G2 BigInt reads an uninitialised local instead of the receiver: it returns the same pair for every point (C104_g2_big_int_refuted) and SetBigInt of that pair is the identity (C104_g2_roundtrip_refuted). C104_g2_set gives what SetBigInt does for well-formed coordinates; larger integers panic in FillBytes."
  },
  {
   "property": "C105",
   "status": "partial",
   "theorems": [
    "C105_new",
    "C105_unique",
    "C105_append",
    "C105_element",
    "C105_set",
    "C105_insert",
    "C105_delete",
    "C105_append_refuted",
    "C105_applies"
   ],
   "note": "C105_append_refuted: appending to a vector of 2^32 bits wraps its length to 0 (uint32 length)."
  },
  {
   "property": "C106",
   "status": "partial",
   "theorems": [
    "C106_init",
    "C106_add_fp",
    "C106_add_fq",
    "C106_add_uint32",
    "C106_add_uint64",
    "C106_add_bit",
    "C106_add_bytes",
    "C106_bytes",
    "C106_fields",
    "C106_fields_injective",
    "C106_bytes_injective",
    "C106_fields_refuted",
    "C106_applies"
   ],
   "note": "C106_fields_refuted: inputs of different lengths collide in Fields: a byte string and the same followed by a zero byte."
  },
  {
   "property": "C107",
   "status": "partial",
   "theorems": [
    "C107_roundtrip_partial",
    "C107_content",
    "C107_content_injective",
    "C107_memo_refuted",
    "C107_unmarshal_refuted",
    "C107_applies",
    "C107_memo_applies"
   ],
   "note": "C107_roundtrip_partial needs abscissas below 2^254 (SetBytes of the base field refuses some larger ones, C86). Refuted: memos over 32 bytes are cut before hashing (C107_memo_refuted); UnmarshalBinary panics when the memo length byte is over 117 (C107_unmarshal_refuted)."
  },
  {
   "property": "C108",
   "status": "partial",
   "theorems": [
    "C108_transaction",
    "C108_message",
    "C108_public_key",
    "C108_generator",
    "C108_verify_transaction",
    "C108_verify_message",
    "C108_sign_total",
    "C108_nonce_injective",
    "C108_network_refuted",
    "C108_message_refuted",
    "C108_applies"
   ],
   "note": "Completeness, the exact acceptance condition, order of the generator and injectivity of the nonce input are proved on the limb-level Pallas field. Refuted: verification panics on transactions of a network other than 0, 1, 2, which UnmarshalBinary accepts (C108_network_refuted); a signature of a message of at most 30 bytes is one of the message followed by a zero byte (C108_message_refuted). The Poseidon constants and BLAKE2b are parameters."
  },
  {
   "property": "C109",
   "status": "partial",
   "theorems": [
    "C109_key_partial",
    "C109_address_partial",
    "C109_address_refuted",
    "C109_signature_partial",
    "C109_applies"
   ],
   "note": "Round trips for abscissas and scalars below 2^254 (see C86). Refuted: a key has 128 valid addresses, since only the low bit of the parity byte is read (C109_address_refuted). Base58 is not modelled."
  },
  {
   "property": "C110",
   "status": "partial",
   "theorems": [
    "C110_permute",
    "C110_hash",
    "C110_update",
    "C110_derive_challenge_partial",
    "C110_derive_challenge_refuted"
   ],
   "note": "The constants are parameters of the declared sizes. C110_derive_challenge_partial: DeriveChallenge gives the challenge of the main network; C110_derive_challenge_refuted: also for transactions of the test network, which VerifyTransaction checks with the other initial state."
  },
  {
   "property": "C111",
   "status": "partial",
   "theorems": [
    "C111_verifies",
    "C111_honest_signature_verifies",
    "C111_signature_length",
    "C111_short_key_refuted",
    "C111_compressed_key_refuted",
    "C111_equals",
    "C111_first_byte_ignored_refuted",
    "C111_padded_ordinate_refuted",
    "C111_zero_key_forgery_refuted",
    "C111_applies"
   ],
   "note": "the equation, honest signatures and the length check on signatures are proved; refuted: keys shorter than 33 bytes and compressed keys panic instead of giving false, the prefix byte is ignored and the ordinate may be padded (unequal keys verifying the same signatures), and the all-zero key is the identity, for which anyone can sign. The Go library's generic ECDSA verifier is modelled over an arbitrary group with coordinates"
  }
 ]
}