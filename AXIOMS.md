# Print Assumptions per property theorem

Generated by tools/gen_axioms.py.  `closed` = "Closed under the global context".

**A1** (primitive 63-bit integers of `Coq.Numbers.Cyclic.Int63` and their specifications):
`Uint63.tail0_spec`, `PrimInt63.tail0`, `Uint63.subcarryc_def_spec`, `PrimInt63.subcarryc`, `Uint63.subc_def_spec`, `PrimInt63.subc`, `Uint63.sub_spec`, `PrimInt63.sub`, `Uint63.of_to_Z`, `Uint63.mulc_spec`, `PrimInt63.mulc`, `Uint63.mul_spec`, `PrimInt63.mul`, `Uint63.mod_spec`, `PrimInt63.mod`, `Uint63.lxor_spec`, `PrimInt63.lxor`, `Uint63.ltb_spec`, `PrimInt63.ltb`, `Uint63.lsr_spec`, `PrimInt63.lsr`, `Uint63.lsl_spec`, `PrimInt63.lsl`, `Uint63.lor_spec`, `PrimInt63.lor`, `Uint63.leb_spec`, `PrimInt63.leb`, `Uint63.land_spec`, `PrimInt63.land`, `PrimInt63.int`, `Uint63.head0_spec`, `PrimInt63.head0`, `Uint63.eqb_refl`, `Uint63.eqb_correct`, `PrimInt63.eqb`, `Uint63.diveucl_def_spec`, `Uint63.diveucl_21_spec`, `PrimInt63.diveucl_21`, `PrimInt63.diveucl`, `Uint63.div_spec`, `PrimInt63.div`, `Uint63.compare_def_spec`, `PrimInt63.compare`, `Uint63.addmuldiv_def_spec`, `PrimInt63.addmuldiv`, `Uint63.addcarryc_def_spec`, `PrimInt63.addcarryc`, `Uint63.addc_def_spec`, `PrimInt63.addc`, `Uint63.add_spec`, `PrimInt63.add`

| theorem | file | assumptions |
|---|---|---|
| C01_b64_round_trip | PropCodec | closed |
| C02_b64e_alphabet | PropCodec | closed |
| C02_b64e_length | PropCodec | closed |
| C03_b64d_accepts_partial | PropCodec | closed |
| C03_b64d_rejects_refuted | PropCodec | closed |
| C03_b64d_unpadded_strict_partial | PropCodec | closed |
| C04_b64d_canonical_partial | PropCodec | closed |
| C04_b64d_injective_refuted | PropCodec | closed |
| C05_long_codec_partial | PropCodec | closed |
| C05_long_codec_refuted | PropCodec | closed |
| C06_base64url_to_long_rejects_partial | PropCodec | closed |
| C06_base64url_to_long_strict_refuted | PropCodec | closed |
| C07_constant_time_compare | PropCodec | closed |
| C07_safe_str_cmp | PropCodec | closed |
| C08_intarr_long2intarr | PropCodec | closed |
| C08_long2intarr_intarr | PropCodec | closed |
| C09_long2hexseq_even_partial | PropCodec | closed |
| C09_long2hexseq_odd_partial | PropCodec | closed |
| C09_long2hexseq_refuted | PropCodec | closed |
| C100_unwrap_ignores_tail | PropSym | closed |
| C101_withpad_partial | PropSym | closed |
| C101_wrap_withpad_refuted | PropSym | closed |
| C102_pack_unpack | PropJwt | closed |
| C103_payload_raw | PropJwt | closed |
| C103_payload_total | PropJwt | closed |
| C104_unpack_exceptions | PropJwt | closed |
| C105_unpack_segments | PropJwt | closed |
| C106_dump_load | PropJwk | closed |
| C107_ec_from_dict | PropJwk | closed |
| C108_public_copy_usable | PropJwk | closed |
| C109_x5t | PropJwk | closed |
| C10_empty_parts_refuted | PropJwt | closed |
| C10_pack_unpack_partial | PropJwt | closed |
| C110_x5t_keyrep | PropJwk | closed |
| C111_hash_stable | PropJwk | closed |
| C112_no_usable_alg | PropJws | closed |
| C113_poisoned | PropJws | closed |
| C114_verify_key_fits | PropJws | closed |
| C115_sign_key_fits | PropJws | closed |
| C116_hmac_one_signature | PropJws | closed |
| C117_verify_json_all | PropJws | closed |
| C118_no_keys_no_trust | PropJws | closed |
| C118_no_keys_refused | PropJws | closed |
| C119_lower_ec_forgery | PropJws | A1 |
| C11_repack | PropJwt | closed |
| C120_recognition_raises | PropJws | closed |
| C120_recognition_total | PropJws | closed |
| C121_unpacked_not_json | PropJws | closed |
| C122_json_sign_then_verify | PropJws | closed |
| C123_sign_then_verify | PropJws | closed |
| C124_works_ec | PropJws | A1 |
| C124_works_hmac | PropJws | closed |
| C124_works_rsa | PropJws | closed |
| C125_tag_form | PropJwe | closed |
| C125_tag_form_content | PropJwe | closed |
| C126_kw_roundtrip | PropJwe | closed |
| C127_rsa_roundtrip | PropJwe | closed |
| C128_ecdh_roundtrip | PropJwe | A1 |
| C129_ecdh_encrypts | PropJwe | A1 |
| C129_kw_encrypts | PropJwe | closed |
| C129_rsa_encrypts | PropJwe | closed |
| C12_split_token | PropJwt | closed |
| C130_at_least_five | PropJwe | closed |
| C130_exactly_five | PropJwe | closed |
| C131_further_segments | PropJwe | closed |
| C132_not_decompressed | PropJwe | closed |
| C133_accepted | PropJwe | closed |
| C133_enc_setup | PropJwe | closed |
| C133_produced | PropJwe | closed |
| C134_passed_over | PropJwe | closed |
| C135_first_key_decides | PropJwe | closed |
| C136_public_key | PropJwe | closed |
| C137_party_info | PropJwe | closed |
| C138_plain_epk | PropJwe | closed |
| C139_text_only | PropJwe | closed |
| C13_payload_text_partial | PropJwt | closed |
| C13_raw_bytes_refuted | PropJwt | closed |
| C140_cek_reused | PropJwe | closed |
| C141_arguments_ignored | PropJwe | closed |
| C142_is_jwe | PropJwe | closed |
| C143_rsa_encrypter | PropJwe | closed |
| C144_given_cek | PropJwe | closed |
| C145_bad_padding | PropJwe | closed |
| C146_count | PropPbkdf2 | closed |
| C146_format | PropPbkdf2 | closed |
| C146_one_iteration | PropPbkdf2 | closed |
| C147_python3 | PropPbkdf2 | closed |
| C148_crypt | PropPbkdf2 | closed |
| C148_generated_salt | PropPbkdf2 | closed |
| C149_closed | PropPbkdf2 | closed |
| C149_fresh | PropPbkdf2 | closed |
| C149_step | PropPbkdf2 | closed |
| C14_kid_conflict_refuted | PropJws | closed |
| C14_none_then_verify_partial | PropJws | closed |
| C14_one_key | PropMore12 | closed |
| C14_sign_then_verify_partial | PropJws | closed |
| C150_any_parts | PropJwt | closed |
| C150_no_numbers | PropJwt | closed |
| C151_constructor | PropJwt | closed |
| C151_pack | PropJwt | closed |
| C151_succeeds | PropJwt | closed |
| C152_unwrap_is_rfc3394 | PropSym | closed |
| C152_wrap_is_rfc3394 | PropSym | closed |
| C153_left_hash_partial | PropMisc | closed |
| C153_only_text_and_octets | PropMisc | closed |
| C153_other_algorithms_refuted | PropMisc | closed |
| C154_mpint_partial | PropMisc | closed |
| C154_round_trip_refuted | PropMisc | closed |
| C155_key_eq_partial | PropMisc | closed |
| C155_rsa_refuted | PropMisc | closed |
| C156_intarr2str | PropMisc | closed |
| C157_keyitems | PropMisc | closed |
| C158_load_key_partial | PropMisc | closed |
| C158_stale_private_refuted | PropMisc | closed |
| C159_der_cert_partial | PropMisc | closed |
| C159_padding_refuted | PropMisc | closed |
| C15_verify_sound | PropJws | closed |
| C160_import_first | PropMisc | closed |
| C160_pem | PropMisc | closed |
| C161_load_x509 | PropMisc | closed |
| C161_nothing | PropMisc | closed |
| C162_hash_input_partial | PropMisc | closed |
| C162_party_refuted | PropMisc | closed |
| C163_keysize | PropMisc | closed |
| C164_accessors | PropMisc | closed |
| C164_dump_header | PropMisc | closed |
| C164_keys | PropJwk2 | closed |
| C165_headers | PropMisc | closed |
| C165_returns | PropMisc | closed |
| C166_decode | PropMisc | closed |
| C167_valid | PropMisc | closed |
| C168_least | PropEc | closed |
| C168_sparse | PropEc | closed |
| C169_assign | PropScript | closed |
| C16_none_needs_opt_in | PropJws | closed |
| C170_signing_succeeds | PropScript | closed |
| C171_sign_verify | PropScript | closed |
| C172_unsigned | PropScript | closed |
| C173_decrypt_prints_nothing | PropScript | closed |
| C173_outcome | PropScript | closed |
| C174_gen_symkey | PropScript | closed |
| C175_pipeline | PropScript | closed |
| C176_jwenc_jwdecrypt | PropScript | closed |
| C177_peek_jwe | PropScript | closed |
| C177_peek_jws | PropScript | closed |
| C177_typ_jwe | PropScript | closed |
| C177_typ_other | PropScript | closed |
| C178_jwk_create | PropScript | closed |
| C179_jwenc_x509 | PropScript | closed |
| C17_no_key_confusion | PropJws | closed |
| C180_key_kind | PropJws | closed |
| C180_not_text | PropJws | closed |
| C181_factory | PropJws | closed |
| C181_json_signed | PropJws | closed |
| C181_recognised | PropJws | closed |
| C182_receiver | PropJwe | closed |
| C182_sender | PropJwe | closed |
| C183_algorithm_id_refuted | PropJwe | closed |
| C184_receiver | PropJwe | closed |
| C184_sender | PropJwe | closed |
| C185_jwe_sym | PropJwe | closed |
| C186_jwdecrypt_file | PropScript | closed |
| C186_jwenc_file | PropScript | closed |
| C186_jwkutil_file | PropScript | closed |
| C186_jwkutil_stdin | PropScript | closed |
| C187_pipe | PropScript | closed |
| C188_ec | PropMisc2 | closed |
| C188_rsa | PropMisc2 | closed |
| C188_set | PropMisc2 | closed |
| C188_sym | PropMisc2 | closed |
| C188_tells | PropMore6 | closed |
| C189_base | PropMisc2 | closed |
| C18_no_usable_alg_partial | PropJws | closed |
| C18_not_in_table_refuted | PropJws | closed |
| C190_names | PropMisc2 | closed |
| C191_bool_refuted | PropMisc2 | closed |
| C191_nested_refuted | PropMisc2 | closed |
| C191_order_partial | PropMisc2 | closed |
| C191_tells | PropMore6 | closed |
| C192_filter | PropMisc2 | closed |
| C193_ints | PropMore6 | closed |
| C193_octets | PropMisc2 | closed |
| C193_refused | PropMisc2 | closed |
| C193_roundtrip | PropMisc2 | closed |
| C194_jwe_to_sym_refuted | PropMisc2 | closed |
| C194_sym_to_jwe_refuted | PropMisc2 | closed |
| C195_certificate | PropMisc2 | closed |
| C195_file | PropMore6 | closed |
| C196_keyrep | PropJwk2 | closed |
| C197_to_dict | PropJwk2 | closed |
| C197_unknown_kept | PropJwk2 | closed |
| C197_x5u_refuted | PropJwk2 | closed |
| C198_both | PropJwk2 | closed |
| C198_object | PropJwk2 | closed |
| C199_given_curve | PropJwk2 | closed |
| C199_key_pair | PropJwk2 | A1 |
| C199_numbers | PropJwk2 | closed |
| C19_expected_alg | PropJws | closed |
| C200_secret | PropJwk2 | closed |
| C201_curve | PropJwk2 | closed |
| C201_rsa | PropJwk2 | closed |
| C201_text | PropJwk2 | closed |
| C202_fetch | PropJwk2 | closed |
| C202_load | PropJwk2 | closed |
| C203_numbers | PropJwk2 | closed |
| C203_object | PropJwk2 | closed |
| C204_unchanged_partial | PropJwk2 | closed |
| C204_verify_partial | PropJwk2 | closed |
| C204_wire_refuted | PropJwk2 | closed |
| C205_empty | PropJwk2 | closed |
| C205_headers | PropJwk2 | closed |
| C205_parameters | PropJwk2 | closed |
| C206_crit | PropJwk2 | closed |
| C207_jwk | PropJwk2 | closed |
| C208_no_point | PropJwk2 | closed |
| C209_encryption_key_partial | PropJwk2 | closed |
| C209_other_partial | PropJwk2 | closed |
| C209_zero_refuted | PropJwk2 | closed |
| C20_pinned_alg | PropJws | closed |
| C210_signature_value | PropMore | A1 |
| C211_verify_raises | PropMore | closed |
| C212_jwe_keys_behind | PropMore | closed |
| C212_keys_behind | PropMore | closed |
| C212_keys_in_front | PropMore | closed |
| C212_unusable_key_refuted | PropMore | closed |
| C213_off_curve | PropMore | closed |
| C214_content_key | PropMore | A1 |
| C214_order_three | PropMore | A1 |
| C214_token_refuted | PropMore | A1 |
| C215_decrypt | PropMore | closed |
| C215_encrypt | PropMore | closed |
| C216_only_certificates | PropMore2 | closed |
| C216_public_key_info | PropMore2 | closed |
| C216_version_1_refuted | PropMore2 | closed |
| C217_first_certificate | PropMore2 | closed |
| C218_factory | PropMore2 | closed |
| C218_fresh_instance_refuted | PropMore2 | closed |
| C219_forms_partial | PropMore2 | closed |
| C219_given_key_refuted | PropMore2 | closed |
| C219_ten_algorithms_partial | PropMore2 | closed |
| C21_sign_key_fits_partial | PropJws | closed |
| C21_use_refuted | PropJws | closed |
| C21_verify_key_fits_partial | PropJws | closed |
| C220_no_text | PropMore2 | closed |
| C221_twos_complement | PropMore3 | closed |
| C222_agrees | PropMore3 | closed |
| C222_no_trace_refuted | PropMore3 | closed |
| C222_trace_partial | PropMore3 | closed |
| C223_material_refuted | PropMore3 | closed |
| C223_rsa_again | PropMore3 | closed |
| C223_rsa_equality | PropMore3 | closed |
| C223_serialize_refuted | PropMore3 | closed |
| C223_sym_again | PropMore3 | closed |
| C224_accepted | PropMore3 | closed |
| C225_192_partial | PropMore3 | closed |
| C225_192_refuted | PropMore3 | closed |
| C225_content_partial | PropMore3 | closed |
| C225_rsa_partial | PropMore3 | closed |
| C226_hashed_key_partial | PropMore3 | closed |
| C226_wrapped_refuted | PropMore3 | closed |
| C227_agrees | PropMore3 | closed |
| C227_no_trace_refuted | PropMore3 | closed |
| C227_trace_partial | PropMore3 | closed |
| C228_decrypt | PropMore4 | closed |
| C228_encrypt_partial | PropMore4 | closed |
| C228_fresh_refuted | PropMore4 | A1 |
| C229_accepts_no_more | PropMore4 | closed |
| C229_used | PropMore4 | closed |
| C22_pick_keys | PropJws | closed |
| C22_pick_keys_none | PropJws | closed |
| C230_agrees | PropMore4 | closed |
| C230_answer | PropMore4 | closed |
| C230_bad_jwk | PropMore6 | closed |
| C230_conflict | PropMore6 | closed |
| C230_key | PropMore6 | closed |
| C230_refused_harmless_refuted | PropMore4 | closed |
| C231_ec | PropMore4 | A1 |
| C231_rsa | PropMore4 | closed |
| C231_sym | PropMore4 | closed |
| C232_header | PropMore4 | closed |
| C232_no_secret | PropMore4 | closed |
| C233_kid | PropMore4 | closed |
| C233_thumbprint | PropMore4 | closed |
| C234_hexread_partial | PropMore5 | closed |
| C234_hexread_refuted | PropMore5 | closed |
| C235_injective | PropMore5 | A1 |
| C235_opposite | PropMore5 | A1 |
| C236_curve_through | PropMore5 | closed |
| C237_both | PropMore5 | A1 |
| C237_formula | PropMore5 | closed |
| C238_intarr2bin | PropMore5 | closed |
| C239_text_refuted | PropMore5 | closed |
| C23_hmac_one_signature_partial | PropJws | closed |
| C23_two_texts_refuted | PropJws | closed |
| C240_load_fails | PropMore5 | closed |
| C240_load_new | PropMore5 | closed |
| C241_alg_refuted | PropMore5 | closed |
| C241_entry_refused | PropMore6 | closed |
| C241_frame_partial | PropMore5 | closed |
| C241_kid_refuted | PropMore5 | closed |
| C241_left_is_header | PropMore6 | closed |
| C241_left_is_protected | PropMore6 | closed |
| C241_refused | PropMore6 | closed |
| C242_distinct | PropMore5 | closed |
| C242_refused | PropMore6 | closed |
| C242_shared | PropMore5 | closed |
| C243_json_accepts | PropText | closed |
| C243_json_refuses | PropText | closed |
| C243_json_written | PropText | closed |
| C244_last_member | PropText | closed |
| C245_utf8_decode | PropText | closed |
| C245_utf8_encode | PropText | closed |
| C246_as_bytes | PropText | closed |
| C246_as_unicode | PropText | closed |
| C247_b64_text | PropText | closed |
| C248_json_of_bytes | PropText | closed |
| C248_json_of_bytes_refuted | PropText | closed |
| C249_unpack_exact | PropText | closed |
| C24_three_segments | PropJws | closed |
| C250_factory_odd | PropText | closed |
| C251_payload_cty | PropText | closed |
| C252_decrypt_raises | PropMore6 | closed |
| C253_few_hashes | PropMore7 | A1 |
| C254_few_keys | PropMore7 | A1 |
| C255_few_s | PropMore7 | A1 |
| C255_only_opposite | PropMore7 | A1 |
| C256_public_determines | PropMore7 | A1 |
| C256_secret_determines | PropMore7 | A1 |
| C257_nonce_reveals | PropMore7 | A1 |
| C257_same_nonce_reveals | PropMore7 | A1 |
| C258_mul | PropMore7 | closed |
| C258_muladdp | PropMore7 | closed |
| C258_mulp | PropMore7 | closed |
| C259_by_kid | PropMore8 | closed |
| C259_falsy | PropMore8 | closed |
| C259_octets | PropMore8 | closed |
| C259_true_kid | PropMore8 | closed |
| C259_void_kid | PropMore8 | closed |
| C259_written | PropMore8 | closed |
| C25_never_unsigned | PropJws | closed |
| C25_sign_refuses | PropJws | closed |
| C260_only_objects | PropMore8 | closed |
| C260_pairs | PropMore8 | closed |
| C260_protected | PropMore8 | closed |
| C260_scalar | PropMore8 | closed |
| C260_text | PropMore8 | closed |
| C261_both | PropMore8 | closed |
| C261_copies_refuted | PropMore8 | closed |
| C261_final | PropMore8 | closed |
| C261_separate_partial | PropMore8 | closed |
| C262_second_test_refuted | PropMore8 | closed |
| C262_selftest_refuted | PropMore8 | closed |
| C263_as_nothing | PropMore9 | closed |
| C263_dictionary_refuted | PropMore9 | A1 |
| C263_messages | PropMore9 | closed |
| C264_padding | PropMore9 | closed |
| C264_plain | PropMore9 | closed |
| C264_url | PropMore9 | closed |
| C265_accepted | PropMore9 | A1 |
| C265_numbers | PropMore9 | A1 |
| C266_below | PropMore10 | closed |
| C266_exactly | PropMore10 | closed |
| C266_first | PropMore10 | closed |
| C266_shared | PropMore10 | closed |
| C267_agree_partial | PropMore10 | closed |
| C267_agree_refuted | PropMore10 | A1 |
| C267_two_ways_odd | PropMore10 | closed |
| C267_two_ways_partial | PropMore10 | closed |
| C267_two_ways_refuted | PropMore10 | A1 |
| C268_secret | PropMore10 | A1 |
| C268_two_secrets | PropMore10 | A1 |
| C269_decodes | PropMore11 | closed |
| C269_raises | PropMore11 | closed |
| C269_refuses | PropMore11 | closed |
| C26_header_members | PropJws | closed |
| C26_produced_header | PropJws | closed |
| C270_texts | PropMore11 | closed |
| C271_same_octets | PropMore11 | closed |
| C271_texts | PropMore11 | closed |
| C272_same_segments | PropMore11 | closed |
| C272_texts | PropMore11 | closed |
| C273_curves | PropMore12 | closed |
| C273_lists | PropMore12 | closed |
| C273_named | PropMore12 | closed |
| C273_sizes | PropMore12 | closed |
| C274_none | PropMore13 | closed |
| C274_number | PropMore13 | closed |
| C274_raises | PropMore13 | closed |
| C274_secret | PropMore13 | closed |
| C275_lengths | PropMore14 | closed |
| C275_read_off | PropMore14 | closed |
| C276_no_payload | PropMore15 | closed |
| C276_raises | PropMore15 | closed |
| C277_format_error | PropMore16 | closed |
| C277_keyrep | PropMore16 | closed |
| C277_verify_json | PropMore16 | closed |
| C278_raises | PropMore17 | closed |
| C279_raises | PropMore18 | A1 |
| C27_no_signature_refuted | PropJws | closed |
| C27_verify_json_all_partial | PropJws | closed |
| C280_raises | PropMore19 | closed |
| C281_raises | PropMore20 | closed |
| C281_serialize | PropMore20 | closed |
| C281_to_dict | PropMore20 | closed |
| C282_hash | PropMore20 | closed |
| C282_thumbprint | PropMore20 | closed |
| C283_constructor | PropMore21 | closed |
| C283_item | PropMore21 | closed |
| C283_pack | PropMore21 | closed |
| C284_dump | PropMore21 | closed |
| C284_each | PropMore21 | closed |
| C285_as_dict | PropMore22 | closed |
| C285_getitem | PropMore22 | closed |
| C285_key_types | PropMore22 | closed |
| C286_accepts | PropMore23 | closed |
| C286_equal | PropMore23 | closed |
| C28_json_sign_then_verify_partial | PropJws | closed |
| C28_kid_refuted | PropJws | closed |
| C28_no_headers_refuted | PropJws | closed |
| C29_compact_partial | PropJws | closed |
| C29_embedded_key_refuted | PropJws | closed |
| C30_crit_refuted | PropJws | closed |
| C31_recognition_refuted | PropJws | closed |
| C31_recognition_total_partial | PropJws | closed |
| C32_recognised | PropJws | closed |
| C33_jku_refuted | PropJws | closed |
| C34_wrap_unwrap | PropSym | closed |
| C35_unwrap_integrity | PropSym | closed |
| C36_tail_dropped_refuted | PropSym | closed |
| C37_pad_length | PropSym | closed |
| C37_pad_trim | PropSym | closed |
| C38_trim_accepts_junk_refuted | PropSym | closed |
| C39_cbc_hmac_round | PropSym | closed |
| C40_bad_tag | PropSym | closed |
| C40_tag_checked | PropSym | closed |
| C40_tag_made | PropSym | closed |
| C41_mac_input_injective | PropSym | closed |
| C42_gf_mul | PropSym | closed |
| C42_product | PropSym | closed |
| C42_product_unique | PropSym | closed |
| C43_ghash | PropSym | closed |
| C44_gcm_round | PropSym | closed |
| C45_only_what_encrypt_makes | PropSym | closed |
| C45_tag_checked | PropSym | closed |
| C46_iv_reuse_refuted | PropSym | closed |
| C47_key24_refuted | PropSym | closed |
| C47_key24_witness_refuted | PropSym | closed |
| C47_key32_refuted | PropSym | closed |
| C47_key_partial | PropSym | closed |
| C48_short_tag_refuted | PropJwe | closed |
| C49_content_inverse | PropJwe | closed |
| C49_content_total | PropJwe | closed |
| C50_receiver | PropJwe | closed |
| C50_sender | PropJwe | closed |
| C51_bytes_refuted | PropJwe | closed |
| C51_ecdh_partial | PropJwe | A1 |
| C51_kw_partial | PropJwe | closed |
| C51_public_refuted | PropJwe | closed |
| C51_rsa_partial | PropJwe | closed |
| C52_second_key_refuted | PropJwe | closed |
| C52_skips_partial | PropJwe | closed |
| C53_alg_honoured | PropJwe | closed |
| C54_at_least_five_partial | PropJwe | closed |
| C54_six_refuted | PropJwe | A1 |
| C54_wrapped_key_partial | PropJwe | closed |
| C55_ecdh_ignores | PropJwe | A1 |
| C55_kw_ignores | PropJwe | closed |
| C55_rsa_compresses | PropJwe | closed |
| C55_rsa_decompresses | PropJwe | closed |
| C56_known | PropJwe | closed |
| C56_unknown_partial | PropJwe | closed |
| C56_unknown_refuted | PropJwe | closed |
| C57_concat_kdf | PropSym | closed |
| C58_otherinfo_refuted | PropSym | closed |
| C59_agree | PropJwe | A1 |
| C59_derive_same | PropJwe | A1 |
| C60_rsa_roundtrip_partial | PropJwk | closed |
| C60_x509_refuted | PropJwk | closed |
| C61_equal_refuted | PropJwk | closed |
| C61_private_refuted | PropJwk | closed |
| C61_public_partial | PropJwk | closed |
| C62_empty_refuted | PropJwk | closed |
| C62_sym_roundtrip_partial | PropJwk | closed |
| C63_dump | PropJwk | closed |
| C63_serialize | PropJwk | closed |
| C64_dump_partial | PropJwk | closed |
| C64_sym_refuted | PropJwk | closed |
| C65_function_of_public_partial | PropJwk | closed |
| C65_no_private_partial | PropJwk | closed |
| C65_sym_refuted | PropJwk | closed |
| C66_ec_partial | PropJwk | closed |
| C66_ec_refuted | PropJwk | closed |
| C66_oct_partial | PropJwk | closed |
| C66_rsa_partial | PropJwk | closed |
| C67_base_refuted | PropJwk | closed |
| C67_members_partial | PropJwk | closed |
| C67_refl_partial | PropJwk | closed |
| C67_sym_partial | PropJwk | closed |
| C67_trans_partial | PropJwk | closed |
| C68_equal_hash_partial | PropJwk | closed |
| C68_hash_keeps_eq_partial | PropJwk | closed |
| C68_kid_refuted | PropJwk | closed |
| C68_raw_sym_refuted | PropJwk | closed |
| C69_by_kid | PropJwk | closed |
| C69_getitem | PropJwk | closed |
| C69_key_types | PropJwk | closed |
| C69_kids | PropJwk | closed |
| C69_order | PropJwk | closed |
| C69_step | PropJwk | closed |
| C70_as_dict | PropJwk | closed |
| C71_length | PropJwk | closed |
| C71_other | PropJwk | closed |
| C72_euclid_terminates | PropEc | closed |
| C72_inv | PropEc | closed |
| C72_inv_loop_terminates | PropEc | closed |
| C73_signed_bin | PropEc | closed |
| C74_addf_partial | PropEc | closed |
| C74_doublef_partial | PropEc | closed |
| C74_doublef_refuted | PropEc | closed |
| C74_from_projective | PropEc | closed |
| C75_associative | PropEc | closed |
| C75_closed | PropEc | closed |
| C75_commutative | PropEc | closed |
| C75_congruence | PropEc | closed |
| C75_inverse | PropEc | closed |
| C75_neutral | PropEc | closed |
| C76_mul_affine | PropEc | closed |
| C76_mulp_partial | PropEc | closed |
| C76_mulp_refuted | PropEc | closed |
| C77_muladdp_partial | PropEc | closed |
| C77_muladdp_refuted | PropEc | closed |
| C77_odd_order | PropMore10 | closed |
| C78_nist_curves | PropEc | A1 |
| C78_parameters | PropEc | closed |
| C79_key_pair | PropEc | A1 |
| C80_ecdh_agreement | PropEc | A1 |
| C81_sign_verify | PropEc | A1 |
| C82_only_type_error_partial | PropEc | A1 |
| C82_verify_returns_refuted | PropEc | A1 |
| C82_verify_textbook_partial | PropEc | A1 |
| C83_es512_exact | PropEc | closed |
| C83_shift | PropEc | A1 |
| C83_short_hash_partial | PropEc | A1 |
| C83_truncation_refuted | PropEc | closed |
| C84_sign_returns_partial | PropEc | A1 |
| C84_sign_terminates_refuted | PropEc | closed |
| C85_sign_length_partial | PropEc | A1 |
| C85_verify_length_refuted | PropEc | A1 |
| C85_zero_insertion | PropEc | A1 |
| C86_ecdh_off_curve_refuted | PropEc | closed |
| C86_verify_off_curve_refuted | PropEc | closed |
| C87_compression_refuted | PropEc | closed |
| C88_one_stream | PropPbkdf2 | closed |
| C88_sizes | PropPbkdf2 | closed |
| C88_split | PropPbkdf2 | closed |
| C89_block | PropPbkdf2 | closed |
| C90_again_partial | PropPbkdf2 | closed |
| C90_refuted | PropPbkdf2 | closed |
| C90_result_partial | PropPbkdf2 | closed |
| C91_never_partial | PropPbkdf2 | closed |
| C91_py2_partial | PropPbkdf2 | closed |
| C91_refuted | PropPbkdf2 | closed |
| C92_muladdp_nist | PropEc | A1 |
| C92_mulp_nist | PropEc | A1 |
| C93_malleable | PropEc | A1 |
| C94_dh_value | PropEc | A1 |
| C95_trim_accepts | PropSym | closed |
| C95_trim_rejects | PropSym | closed |
| C96_gcm_is_nist | PropSym | closed |
| C97_consecutive_iv_refused | PropSym | closed |
| C98_otherinfo_injective | PropSym | closed |
| C99_unwrap_total | PropSym | closed |
