{
 "claims": [
  {
   "property": "C01",
   "status": "proved",
   "theorems": [
    "C01_b64_round_trip"
   ],
   "note": ""
  },
  {
   "property": "C02",
   "status": "proved",
   "theorems": [
    "C02_b64e_alphabet",
    "C02_b64e_length"
   ],
   "note": ""
  },
  {
   "property": "C03",
   "status": "partial",
   "theorems": [
    "C03_b64d_rejects_refuted",
    "C03_b64d_accepts_partial",
    "C03_b64d_unpadded_strict_partial"
   ],
   "note": "False as stated: b64d(b'ab\\n==') is accepted (the regex $ matches before a final newline). Proved: at most one trailing newline before padding can slip through, and unpadded input is checked strictly. The exact condition is C269."
  },
  {
   "property": "C04",
   "status": "partial",
   "theorems": [
    "C04_b64d_injective_refuted",
    "C04_b64d_canonical_partial"
   ],
   "note": "False as stated: unused trailing bits are ignored. Proved: only the last character can differ from the canonical text, and text whose length is a multiple of 4 is canonical. The exact number of texts is C270."
  },
  {
   "property": "C05",
   "status": "partial",
   "theorems": [
    "C05_long_codec_partial",
    "C05_long_codec_refuted"
   ],
   "note": "Proved for n > 0; for n = 0 long_to_base64 raises TypeError on Python 3 (refuted)."
  },
  {
   "property": "C06",
   "status": "partial",
   "theorems": [
    "C06_base64url_to_long_strict_refuted",
    "C06_base64url_to_long_rejects_partial"
   ],
   "note": "False as stated: only '+', '/', '=' are rejected, other junk is skipped."
  },
  {
   "property": "C07",
   "status": "proved",
   "theorems": [
    "C07_constant_time_compare",
    "C07_safe_str_cmp"
   ],
   "note": ""
  },
  {
   "property": "C08",
   "status": "proved",
   "theorems": [
    "C08_intarr_long2intarr",
    "C08_long2intarr_intarr"
   ],
   "note": ""
  },
  {
   "property": "C09",
   "status": "partial",
   "theorems": [
    "C09_long2hexseq_refuted",
    "C09_long2hexseq_even_partial",
    "C09_long2hexseq_odd_partial"
   ],
   "note": "False as stated: exactly the integers with an odd number of hex digits raise."
  },
  {
   "property": "C10",
   "status": "partial",
   "theorems": [
    "C10_pack_unpack_partial",
    "C10_empty_parts_refuted"
   ],
   "note": "Proved for non-empty part lists (also C102). For the empty list pack returns the lone header segment, which unpack refuses with BadSyntax (refuted)."
  },
  {
   "property": "C11",
   "status": "proved",
   "theorems": [
    "C11_repack"
   ],
   "note": ""
  },
  {
   "property": "C12",
   "status": "proved",
   "theorems": [
    "C12_split_token"
   ],
   "note": ""
  },
  {
   "property": "C13",
   "status": "partial",
   "theorems": [
    "C13_payload_text_partial",
    "C13_raw_bytes_refuted"
   ],
   "note": "Proved for UTF-8 payloads. False for other payloads: json.loads(bytes) guesses UTF-16/32, so bytes that are not UTF-8 may come back as a JSON value (refuted; exact behaviour in C103)."
  },
  {
   "property": "C14",
   "status": "partial",
   "theorems": [
    "C14_sign_then_verify_partial",
    "C14_none_then_verify_partial",
    "C14_kid_conflict_refuted",
    "C14_one_key"
   ],
   "note": "Proved when no key without a kid is offered together with a kid in the protected header (C123), and for alg none; refuted when the header carries a kid and the key none. For a single key C14_one_key says exactly when: the key has a kid or the protected header has none."
  },
  {
   "property": "C15",
   "status": "proved",
   "theorems": [
    "C15_verify_sound"
   ],
   "note": ""
  },
  {
   "property": "C16",
   "status": "proved",
   "theorems": [
    "C16_none_needs_opt_in"
   ],
   "note": ""
  },
  {
   "property": "C17",
   "status": "proved",
   "theorems": [
    "C17_no_key_confusion"
   ],
   "note": ""
  },
  {
   "property": "C18",
   "status": "partial",
   "theorems": [
    "C18_no_usable_alg_partial",
    "C18_not_in_table_refuted"
   ],
   "note": "Proved unless allow_none is set (C112); with allow_none a null or upper-case NONE algorithm is accepted though it is not in the table (refuted)."
  },
  {
   "property": "C19",
   "status": "proved",
   "theorems": [
    "C19_expected_alg"
   ],
   "note": ""
  },
  {
   "property": "C20",
   "status": "proved",
   "theorems": [
    "C20_pinned_alg"
   ],
   "note": ""
  },
  {
   "property": "C21",
   "status": "partial",
   "theorems": [
    "C21_verify_key_fits_partial",
    "C21_sign_key_fits_partial",
    "C21_use_refuted"
   ],
   "note": "kid and alg are respected both ways and use when signing (C114, C115); verification accepts a key with use enc (refuted)."
  },
  {
   "property": "C22",
   "status": "proved",
   "theorems": [
    "C22_pick_keys",
    "C22_pick_keys_none"
   ],
   "note": ""
  },
  {
   "property": "C23",
   "status": "partial",
   "theorems": [
    "C23_hmac_one_signature_partial",
    "C23_two_texts_refuted"
   ],
   "note": "The decoded signature is unique (C116); the segment text is not (refuted: unused bits of the last character). The exact number of accepted texts is C271."
  },
  {
   "property": "C24",
   "status": "proved",
   "theorems": [
    "C24_three_segments"
   ],
   "note": ""
  },
  {
   "property": "C25",
   "status": "proved",
   "theorems": [
    "C25_sign_refuses",
    "C25_never_unsigned"
   ],
   "note": ""
  },
  {
   "property": "C26",
   "status": "proved",
   "theorems": [
    "C26_produced_header",
    "C26_header_members"
   ],
   "note": ""
  },
  {
   "property": "C27",
   "status": "partial",
   "theorems": [
    "C27_verify_json_all_partial",
    "C27_no_signature_refuted"
   ],
   "note": "Every listed entry is verified and non-null views agree (C117); an empty signatures list is accepted with result None (refuted)."
  },
  {
   "property": "C28",
   "status": "partial",
   "theorems": [
    "C28_json_sign_then_verify_partial",
    "C28_kid_refuted",
    "C28_no_headers_refuted"
   ],
   "note": "Proved for at least one header pair and no kid outside the protected header (C122); refuted for an unprotected kid with a key without kid and for an empty list of headers."
  },
  {
   "property": "C29",
   "status": "partial",
   "theorems": [
    "C29_compact_partial",
    "C29_embedded_key_refuted"
   ],
   "note": "True of compact tokens (C118); a JSON serialization's header can bring the key that verifies it (refuted)."
  },
  {
   "property": "C30",
   "status": "partial",
   "theorems": [
    "C30_crit_refuted"
   ],
   "note": "False: crit is not looked at (refuted)."
  },
  {
   "property": "C31",
   "status": "partial",
   "theorems": [
    "C31_recognition_refuted",
    "C31_recognition_total_partial"
   ],
   "note": "False: JSON texts that are no objects and headers that are no objects raise (refuted); the cases that return are proved (C120)."
  },
  {
   "property": "C32",
   "status": "proved",
   "theorems": [
    "C32_recognised"
   ],
   "note": ""
  },
  {
   "property": "C33",
   "status": "partial",
   "theorems": [
    "C33_jku_refuted"
   ],
   "note": "False: keys fetched from jku are never tried and the call raises AttributeError (refuted); see C118."
  },
  {
   "property": "C34",
   "status": "proved",
   "theorems": [
    "C34_wrap_unwrap"
   ],
   "note": "Relative to the law that the AES block function is a permutation of blocks; that law is itself proved for FIPS-197 AES (AesProofs.aes_inverse, Inst.std_aes_law). Lengths below 2^63."
  },
  {
   "property": "C35",
   "status": "proved",
   "theorems": [
    "C35_unwrap_integrity"
   ],
   "note": "As C34."
  },
  {
   "property": "C36",
   "status": "partial",
   "theorems": [
    "C36_tail_dropped_refuted"
   ],
   "note": "False for every key whose length is not a multiple of 8: the tail is dropped."
  },
  {
   "property": "C37",
   "status": "proved",
   "theorems": [
    "C37_pad_trim",
    "C37_pad_length"
   ],
   "note": ""
  },
  {
   "property": "C38",
   "status": "partial",
   "theorems": [
    "C38_trim_accepts_junk_refuted"
   ],
   "note": "False: only the last octet is examined. Exact description of what is accepted: C95."
  },
  {
   "property": "C39",
   "status": "proved",
   "theorems": [
    "C39_cbc_hmac_round"
   ],
   "note": ""
  },
  {
   "property": "C40",
   "status": "proved",
   "theorems": [
    "C40_tag_checked",
    "C40_bad_tag",
    "C40_tag_made"
   ],
   "note": ""
  },
  {
   "property": "C41",
   "status": "proved",
   "theorems": [
    "C41_mac_input_injective"
   ],
   "note": ""
  },
  {
   "property": "C42",
   "status": "proved",
   "theorems": [
    "C42_gf_mul",
    "C42_product",
    "C42_product_unique"
   ],
   "note": ""
  },
  {
   "property": "C43",
   "status": "proved",
   "theorems": [
    "C43_ghash"
   ],
   "note": ""
  },
  {
   "property": "C44",
   "status": "proved",
   "theorems": [
    "C44_gcm_round"
   ],
   "note": ""
  },
  {
   "property": "C45",
   "status": "proved",
   "theorems": [
    "C45_tag_checked",
    "C45_only_what_encrypt_makes"
   ],
   "note": ""
  },
  {
   "property": "C46",
   "status": "partial",
   "theorems": [
    "C46_iv_reuse_refuted"
   ],
   "note": "False: IV sequence 1, 2, 1 is accepted for every key. True part: C97."
  },
  {
   "property": "C47",
   "status": "partial",
   "theorems": [
    "C47_key_partial",
    "C47_key24_refuted",
    "C47_key24_witness_refuted",
    "C47_key32_refuted"
   ],
   "note": "Proved for 16-octet keys and 32-octet keys with non-zero first half; false for all 24-octet keys and for 32-octet keys starting with 16 zero octets."
  },
  {
   "property": "C48",
   "status": "partial",
   "theorems": [
    "C48_short_tag_refuted"
   ],
   "note": "False: a tag with leading zero octets is encoded shorter (refuted with a 15-octet tag); C125 is what holds."
  },
  {
   "property": "C49",
   "status": "proved",
   "theorems": [
    "C49_content_inverse",
    "C49_content_total"
   ],
   "note": "For any AES obeying the inverse law; the length limits of content_total are those of GCM."
  },
  {
   "property": "C50",
   "status": "proved",
   "theorems": [
    "C50_sender",
    "C50_receiver"
   ],
   "note": ""
  },
  {
   "property": "C51",
   "status": "partial",
   "theorems": [
    "C51_kw_partial",
    "C51_rsa_partial",
    "C51_ecdh_partial",
    "C51_bytes_refuted",
    "C51_public_refuted"
   ],
   "note": "Proved for wrapped keys with text messages, RSA, and ECDH-ES with an EC key that has its private value; refuted for bytes messages with a wrapped key and for public EC keys."
  },
  {
   "property": "C52",
   "status": "partial",
   "theorems": [
    "C52_skips_partial",
    "C52_second_key_refuted"
   ],
   "note": "Proved for RSA1_5 keys passed over because of their padding; refuted for wrapped keys; C135 shows that for wrapped keys and ECDH-ES only the first suitable key counts."
  },
  {
   "property": "C53",
   "status": "proved",
   "theorems": [
    "C53_alg_honoured"
   ],
   "note": ""
  },
  {
   "property": "C54",
   "status": "partial",
   "theorems": [
    "C54_at_least_five_partial",
    "C54_wrapped_key_partial",
    "C54_six_refuted"
   ],
   "note": "At least five proved, exactly five with wrapped keys; refuted for RSA, see C131."
  },
  {
   "property": "C55",
   "status": "proved",
   "theorems": [
    "C55_rsa_compresses",
    "C55_rsa_decompresses",
    "C55_kw_ignores",
    "C55_ecdh_ignores"
   ],
   "note": "RSA compresses and decompresses; wrapped keys and ECDH-ES drop the option when encrypting and return the message."
  },
  {
   "property": "C56",
   "status": "partial",
   "theorems": [
    "C56_known",
    "C56_unknown_partial",
    "C56_unknown_refuted"
   ],
   "note": "Sizes proved; unknown names raise unless both values are given, in which case they are returned (refuted)."
  },
  {
   "property": "C57",
   "status": "proved",
   "theorems": [
    "C57_concat_kdf"
   ],
   "note": ""
  },
  {
   "property": "C58",
   "status": "partial",
   "theorems": [
    "C58_otherinfo_refuted"
   ],
   "note": "False for every input: the 4-octet length of the algorithm id is missing, the rest agrees. True part: C98."
  },
  {
   "property": "C59",
   "status": "proved",
   "theorems": [
    "C59_derive_same",
    "C59_agree"
   ],
   "note": ""
  },
  {
   "property": "C60",
   "status": "partial",
   "theorems": [
    "C60_rsa_roundtrip_partial",
    "C60_x509_refuted"
   ],
   "note": "All nine numbers and kty, alg, use, kid are proved to survive exactly. The certificate members (x5c, x5t, x5u) and unknown extra members do not (refuted)."
  },
  {
   "property": "C61",
   "status": "partial",
   "theorems": [
    "C61_public_partial",
    "C61_private_refuted",
    "C61_equal_refuted"
   ],
   "note": "Curve, x, y and annotations are proved to survive for positive coordinates. The private value comes back as undecoded base64 octets and the crv attribute as bytes, so the key differs from the original (refuted); C107 gives the reader that restores private keys."
  },
  {
   "property": "C62",
   "status": "partial",
   "theorems": [
    "C62_sym_roundtrip_partial",
    "C62_empty_refuted"
   ],
   "note": "Proved for non-empty secrets; the empty secret comes back as no key (refuted)."
  },
  {
   "property": "C63",
   "status": "proved",
   "theorems": [
    "C63_serialize",
    "C63_dump"
   ],
   "note": ""
  },
  {
   "property": "C64",
   "status": "partial",
   "theorems": [
    "C64_dump_partial",
    "C64_sym_refuted"
   ],
   "note": "True for RSA and EC keys (proved, C63); false for symmetric keys: k is written out (refuted)."
  },
  {
   "property": "C65",
   "status": "partial",
   "theorems": [
    "C65_no_private_partial",
    "C65_function_of_public_partial",
    "C65_sym_refuted"
   ],
   "note": "Proved for RSA and EC keys; for symmetric keys the secret k is copied (refuted)."
  },
  {
   "property": "C66",
   "status": "partial",
   "theorems": [
    "C66_rsa_partial",
    "C66_oct_partial",
    "C66_ec_partial",
    "C66_ec_refuted"
   ],
   "note": "Proved for RSA and oct keys. EC thumbprints leave out kty (exact text proved; refuted against RFC 7638 with SHA-256)."
  },
  {
   "property": "C67",
   "status": "partial",
   "theorems": [
    "C67_members_partial",
    "C67_refl_partial",
    "C67_sym_partial",
    "C67_trans_partial",
    "C67_base_refuted"
   ],
   "note": "Proved for the RSA, EC and symmetric classes on plain (NaN-free JSON-like) members; for the base class Key == raises AttributeError (refuted)."
  },
  {
   "property": "C68",
   "status": "partial",
   "theorems": [
    "C68_equal_hash_partial",
    "C68_hash_keeps_eq_partial",
    "C68_raw_sym_refuted",
    "C68_kid_refuted"
   ],
   "note": "Proved for keys whose cached parts agree with their public members, and for keys with a kid. Refuted: symmetric keys built from raw secrets are all equal but hash differently; hashing a key without a kid sets its kid and changes equality."
  },
  {
   "property": "C69",
   "status": "proved",
   "theorems": [
    "C69_step",
    "C69_order",
    "C69_kids",
    "C69_by_kid",
    "C69_getitem",
    "C69_key_types"
   ],
   "note": ""
  },
  {
   "property": "C70",
   "status": "proved",
   "theorems": [
    "C70_as_dict"
   ],
   "note": ""
  },
  {
   "property": "C71",
   "status": "proved",
   "theorems": [
    "C71_length",
    "C71_other"
   ],
   "note": ""
  },
  {
   "property": "C72",
   "status": "proved",
   "theorems": [
    "C72_inv",
    "C72_euclid_terminates",
    "C72_inv_loop_terminates"
   ],
   "note": ""
  },
  {
   "property": "C73",
   "status": "proved",
   "theorems": [
    "C73_signed_bin"
   ],
   "note": ""
  },
  {
   "property": "C74",
   "status": "partial",
   "theorems": [
    "C74_addf_partial",
    "C74_doublef_partial",
    "C74_doublef_refuted",
    "C74_from_projective"
   ],
   "note": "addf is proved for all operands. doublef is proved except at points with y = 0, where it is wrong on general curves (refuted on a curve over Z/23); the built-in curves have no such point (C92)."
  },
  {
   "property": "C75",
   "status": "proved",
   "theorems": [
    "C75_closed",
    "C75_associative",
    "C75_commutative",
    "C75_neutral",
    "C75_inverse",
    "C75_congruence"
   ],
   "note": ""
  },
  {
   "property": "C76",
   "status": "partial",
   "theorems": [
    "C76_mulp_partial",
    "C76_mul_affine",
    "C76_mulp_refuted"
   ],
   "note": "False for points of even order (refuted); proved for all curves without points of order two, hence for every built-in curve (C92), and for exactly the points of odd order on all curves (C266). The affine mul is proved for all curves."
  },
  {
   "property": "C77",
   "status": "partial",
   "theorems": [
    "C77_muladdp_partial",
    "C77_muladdp_refuted",
    "C77_odd_order"
   ],
   "note": "As C76: proved for curves without points of order two and for points of odd order on all curves; refuted otherwise."
  },
  {
   "property": "C78",
   "status": "proved",
   "theorems": [
    "C78_nist_curves",
    "C78_parameters"
   ],
   "note": ""
  },
  {
   "property": "C79",
   "status": "proved",
   "theorems": [
    "C79_key_pair"
   ],
   "note": ""
  },
  {
   "property": "C80",
   "status": "proved",
   "theorems": [
    "C80_ecdh_agreement"
   ],
   "note": ""
  },
  {
   "property": "C81",
   "status": "proved",
   "theorems": [
    "C81_sign_verify"
   ],
   "note": ""
  },
  {
   "property": "C82",
   "status": "partial",
   "theorems": [
    "C82_verify_textbook_partial",
    "C82_only_type_error_partial",
    "C82_verify_returns_refuted"
   ],
   "note": "Acceptance is exactly the textbook condition. Refusal can be an uncaught TypeError (when the combination is the neutral element) instead of False: refuted part; no other exception is possible."
  },
  {
   "property": "C83",
   "status": "partial",
   "theorems": [
    "C83_truncation_refuted",
    "C83_short_hash_partial",
    "C83_es512_exact",
    "C83_shift"
   ],
   "note": "False for hashes as long as N but larger (refuted); proved for h <= N, always the case for ES512."
  },
  {
   "property": "C84",
   "status": "partial",
   "theorems": [
    "C84_sign_terminates_refuted",
    "C84_sign_returns_partial"
   ],
   "note": "False: a nonce giving s = 0 (or r = 0) is reused for ever (refuted); proved to return for every other nonce."
  },
  {
   "property": "C85",
   "status": "partial",
   "theorems": [
    "C85_sign_length_partial",
    "C85_verify_length_refuted",
    "C85_zero_insertion"
   ],
   "note": "The produced length is proved; verify accepts longer signatures (refuted)."
  },
  {
   "property": "C86",
   "status": "partial",
   "theorems": [
    "C86_ecdh_off_curve_refuted",
    "C86_verify_off_curve_refuted"
   ],
   "note": "False (refuted for ECDH and for verify)."
  },
  {
   "property": "C87",
   "status": "partial",
   "theorems": [
    "C87_compression_refuted"
   ],
   "note": "False: y_from_x is unimplemented (refuted)."
  },
  {
   "property": "C88",
   "status": "proved",
   "theorems": [
    "C88_one_stream",
    "C88_sizes",
    "C88_split"
   ],
   "note": "PBKDF2 objects exist on Python 2 only (C91). Negative sizes are covered by C88_one_stream and C149_step."
  },
  {
   "property": "C89",
   "status": "proved",
   "theorems": [
    "C89_block"
   ],
   "note": "HMAC-SHA1 enters by its length law only; RFC 6070 vectors are checked with the executable instance."
  },
  {
   "property": "C90",
   "status": "partial",
   "theorems": [
    "C90_again_partial",
    "C90_result_partial",
    "C90_refuted"
   ],
   "note": "Holds for every result crypt returns on Python 2, whatever count is given the second time; the calls that return are characterised exactly. The full claim is false: with two or more iterations the hash is a text and base64 refuses non-ASCII text (C90_refuted), and on Python 3 crypt never returns (C147)."
  },
  {
   "property": "C91",
   "status": "partial",
   "theorems": [
    "C91_refuted",
    "C91_never_partial",
    "C91_py2_partial"
   ],
   "note": "False of the code: the encoded passphrase is bytes and the following isinstance(str) test refuses it, so no call returns on Python 3; bytes are refused too. Python 2 takes ASCII octets."
  },
  {
   "property": "C92",
   "status": "proved",
   "theorems": [
    "C92_mulp_nist",
    "C92_muladdp_nist"
   ],
   "note": ""
  },
  {
   "property": "C93",
   "status": "proved",
   "theorems": [
    "C93_malleable"
   ],
   "note": ""
  },
  {
   "property": "C94",
   "status": "proved",
   "theorems": [
    "C94_dh_value"
   ],
   "note": ""
  },
  {
   "property": "C95",
   "status": "proved",
   "theorems": [
    "C95_trim_accepts",
    "C95_trim_rejects"
   ],
   "note": ""
  },
  {
   "property": "C96",
   "status": "proved",
   "theorems": [
    "C96_gcm_is_nist"
   ],
   "note": ""
  },
  {
   "property": "C97",
   "status": "proved",
   "theorems": [
    "C97_consecutive_iv_refused"
   ],
   "note": ""
  },
  {
   "property": "C98",
   "status": "proved",
   "theorems": [
    "C98_otherinfo_injective"
   ],
   "note": ""
  },
  {
   "property": "C99",
   "status": "proved",
   "theorems": [
    "C99_unwrap_total"
   ],
   "note": ""
  },
  {
   "property": "C100",
   "status": "proved",
   "theorems": [
    "C100_unwrap_ignores_tail"
   ],
   "note": ""
  },
  {
   "property": "C101",
   "status": "partial",
   "theorems": [
    "C101_withpad_partial",
    "C101_wrap_withpad_refuted"
   ],
   "note": "aes_wrap_key_withpad adds str to bytes and always raises TypeError on Python 3; unwrapping is proved to invert RFC 5649 wrapping."
  },
  {
   "property": "C102",
   "status": "proved",
   "theorems": [
    "C102_pack_unpack"
   ],
   "note": ""
  },
  {
   "property": "C103",
   "status": "proved",
   "theorems": [
    "C103_payload_raw",
    "C103_payload_total"
   ],
   "note": ""
  },
  {
   "property": "C104",
   "status": "proved",
   "theorems": [
    "C104_unpack_exceptions"
   ],
   "note": ""
  },
  {
   "property": "C105",
   "status": "proved",
   "theorems": [
    "C105_unpack_segments"
   ],
   "note": ""
  },
  {
   "property": "C106",
   "status": "proved",
   "theorems": [
    "C106_dump_load"
   ],
   "note": ""
  },
  {
   "property": "C107",
   "status": "proved",
   "theorems": [
    "C107_ec_from_dict"
   ],
   "note": ""
  },
  {
   "property": "C108",
   "status": "proved",
   "theorems": [
    "C108_public_copy_usable"
   ],
   "note": ""
  },
  {
   "property": "C109",
   "status": "proved",
   "theorems": [
    "C109_x5t"
   ],
   "note": ""
  },
  {
   "property": "C110",
   "status": "proved",
   "theorems": [
    "C110_x5t_keyrep"
   ],
   "note": ""
  },
  {
   "property": "C111",
   "status": "proved",
   "theorems": [
    "C111_hash_stable"
   ],
   "note": ""
  },
  {
   "property": "C112",
   "status": "proved",
   "theorems": [
    "C112_no_usable_alg"
   ],
   "note": ""
  },
  {
   "property": "C113",
   "status": "proved",
   "theorems": [
    "C113_poisoned"
   ],
   "note": ""
  },
  {
   "property": "C114",
   "status": "proved",
   "theorems": [
    "C114_verify_key_fits"
   ],
   "note": ""
  },
  {
   "property": "C115",
   "status": "proved",
   "theorems": [
    "C115_sign_key_fits"
   ],
   "note": ""
  },
  {
   "property": "C116",
   "status": "proved",
   "theorems": [
    "C116_hmac_one_signature"
   ],
   "note": ""
  },
  {
   "property": "C117",
   "status": "proved",
   "theorems": [
    "C117_verify_json_all"
   ],
   "note": ""
  },
  {
   "property": "C118",
   "status": "proved",
   "theorems": [
    "C118_no_keys_no_trust",
    "C118_no_keys_refused"
   ],
   "note": ""
  },
  {
   "property": "C119",
   "status": "proved",
   "theorems": [
    "C119_lower_ec_forgery"
   ],
   "note": ""
  },
  {
   "property": "C120",
   "status": "proved",
   "theorems": [
    "C120_recognition_raises",
    "C120_recognition_total"
   ],
   "note": ""
  },
  {
   "property": "C121",
   "status": "proved",
   "theorems": [
    "C121_unpacked_not_json"
   ],
   "note": ""
  },
  {
   "property": "C122",
   "status": "proved",
   "theorems": [
    "C122_json_sign_then_verify"
   ],
   "note": ""
  },
  {
   "property": "C123",
   "status": "proved",
   "theorems": [
    "C123_sign_then_verify"
   ],
   "note": ""
  },
  {
   "property": "C124",
   "status": "proved",
   "theorems": [
    "C124_works_hmac",
    "C124_works_rsa",
    "C124_works_ec"
   ],
   "note": ""
  },
  {
   "property": "C125",
   "status": "proved",
   "theorems": [
    "C125_tag_form",
    "C125_tag_form_content"
   ],
   "note": ""
  },
  {
   "property": "C126",
   "status": "proved",
   "theorems": [
    "C126_kw_roundtrip"
   ],
   "note": ""
  },
  {
   "property": "C127",
   "status": "proved",
   "theorems": [
    "C127_rsa_roundtrip"
   ],
   "note": ""
  },
  {
   "property": "C128",
   "status": "proved",
   "theorems": [
    "C128_ecdh_roundtrip"
   ],
   "note": ""
  },
  {
   "property": "C129",
   "status": "proved",
   "theorems": [
    "C129_kw_encrypts",
    "C129_rsa_encrypts",
    "C129_ecdh_encrypts"
   ],
   "note": ""
  },
  {
   "property": "C130",
   "status": "proved",
   "theorems": [
    "C130_at_least_five",
    "C130_exactly_five"
   ],
   "note": ""
  },
  {
   "property": "C131",
   "status": "proved",
   "theorems": [
    "C131_further_segments"
   ],
   "note": ""
  },
  {
   "property": "C132",
   "status": "proved",
   "theorems": [
    "C132_not_decompressed"
   ],
   "note": ""
  },
  {
   "property": "C133",
   "status": "proved",
   "theorems": [
    "C133_produced",
    "C133_accepted",
    "C133_enc_setup"
   ],
   "note": ""
  },
  {
   "property": "C134",
   "status": "proved",
   "theorems": [
    "C134_passed_over"
   ],
   "note": ""
  },
  {
   "property": "C135",
   "status": "proved",
   "theorems": [
    "C135_first_key_decides"
   ],
   "note": ""
  },
  {
   "property": "C136",
   "status": "proved",
   "theorems": [
    "C136_public_key"
   ],
   "note": ""
  },
  {
   "property": "C137",
   "status": "proved",
   "theorems": [
    "C137_party_info"
   ],
   "note": ""
  },
  {
   "property": "C138",
   "status": "proved",
   "theorems": [
    "C138_plain_epk"
   ],
   "note": ""
  },
  {
   "property": "C139",
   "status": "proved",
   "theorems": [
    "C139_text_only"
   ],
   "note": ""
  },
  {
   "property": "C140",
   "status": "proved",
   "theorems": [
    "C140_cek_reused"
   ],
   "note": ""
  },
  {
   "property": "C141",
   "status": "proved",
   "theorems": [
    "C141_arguments_ignored"
   ],
   "note": ""
  },
  {
   "property": "C142",
   "status": "proved",
   "theorems": [
    "C142_is_jwe"
   ],
   "note": ""
  },
  {
   "property": "C143",
   "status": "proved",
   "theorems": [
    "C143_rsa_encrypter"
   ],
   "note": ""
  },
  {
   "property": "C144",
   "status": "proved",
   "theorems": [
    "C144_given_cek"
   ],
   "note": ""
  },
  {
   "property": "C145",
   "status": "proved",
   "theorems": [
    "C145_bad_padding"
   ],
   "note": ""
  },
  {
   "property": "C146",
   "status": "proved",
   "theorems": [
    "C146_format",
    "C146_count",
    "C146_one_iteration"
   ],
   "note": ""
  },
  {
   "property": "C147",
   "status": "proved",
   "theorems": [
    "C147_python3"
   ],
   "note": ""
  },
  {
   "property": "C148",
   "status": "proved",
   "theorems": [
    "C148_generated_salt",
    "C148_crypt"
   ],
   "note": ""
  },
  {
   "property": "C149",
   "status": "proved",
   "theorems": [
    "C149_step",
    "C149_fresh",
    "C149_closed"
   ],
   "note": ""
  },
  {
   "property": "C150",
   "status": "proved",
   "theorems": [
    "C150_any_parts",
    "C150_no_numbers"
   ],
   "note": ""
  },
  {
   "property": "C151",
   "status": "proved",
   "theorems": [
    "C151_constructor",
    "C151_succeeds",
    "C151_pack"
   ],
   "note": ""
  },
  {
   "property": "C152",
   "status": "proved",
   "theorems": [
    "C152_wrap_is_rfc3394",
    "C152_unwrap_is_rfc3394"
   ],
   "note": ""
  },
  {
   "property": "C153",
   "status": "partial",
   "theorems": [
    "C153_left_hash_partial",
    "C153_other_algorithms_refuted",
    "C153_only_text_and_octets"
   ],
   "note": "False as stated: proved for HS256, HS384 and HS512; for every other name (RS256, ES256, PS256, ...) left_hash returns None."
  },
  {
   "property": "C154",
   "status": "partial",
   "theorems": [
    "C154_mpint_partial",
    "C154_round_trip_refuted"
   ],
   "note": "False as stated: mpint appends a zero octet, multiplying the number by 256, and mp2bin keeps it. Proved: the length prefix is right."
  },
  {
   "property": "C155",
   "status": "partial",
   "theorems": [
    "C155_key_eq_partial",
    "C155_rsa_refuted"
   ],
   "note": "False as stated: key_eq raises TypeError for two RSA keys, as it tests isinstance against the module RSA. Proved for texts and for keys of different kinds; rsa_eq is right."
  },
  {
   "property": "C156",
   "status": "proved",
   "theorems": [
    "C156_intarr2str"
   ],
   "note": ""
  },
  {
   "property": "C157",
   "status": "proved",
   "theorems": [
    "C157_keyitems"
   ],
   "note": ""
  },
  {
   "property": "C158",
   "status": "partial",
   "theorems": [
    "C158_load_key_partial",
    "C158_stale_private_refuted"
   ],
   "note": "False as stated: numbers that the new key does not have stay. A public key loaded over a private one leaves the old d in place. Proved for a new object."
  },
  {
   "property": "C159",
   "status": "partial",
   "theorems": [
    "C159_der_cert_partial",
    "C159_padding_refuted"
   ],
   "note": "False as stated: the padding is removed too, so a certificate is only accepted if its length is a multiple of three; otherwise binascii.Error."
  },
  {
   "property": "C160",
   "status": "proved",
   "theorems": [
    "C160_pem",
    "C160_import_first"
   ],
   "note": ""
  },
  {
   "property": "C161",
   "status": "proved",
   "theorems": [
    "C161_load_x509",
    "C161_nothing"
   ],
   "note": ""
  },
  {
   "property": "C162",
   "status": "partial",
   "theorems": [
    "C162_hash_input_partial",
    "C162_party_refuted"
   ],
   "note": "False as stated: with a non-empty party value the function never returns on Python 3. Proved for empty ones."
  },
  {
   "property": "C163",
   "status": "proved",
   "theorems": [
    "C163_keysize"
   ],
   "note": ""
  },
  {
   "property": "C164",
   "status": "proved",
   "theorems": [
    "C164_keys",
    "C164_accessors",
    "C164_dump_header"
   ],
   "note": ""
  },
  {
   "property": "C165",
   "status": "proved",
   "theorems": [
    "C165_headers",
    "C165_returns"
   ],
   "note": ""
  },
  {
   "property": "C166",
   "status": "proved",
   "theorems": [
    "C166_decode"
   ],
   "note": ""
  },
  {
   "property": "C167",
   "status": "proved",
   "theorems": [
    "C167_valid"
   ],
   "note": ""
  },
  {
   "property": "C168",
   "status": "proved",
   "theorems": [
    "C168_sparse",
    "C168_least"
   ],
   "note": ""
  },
  {
   "property": "C169",
   "status": "proved",
   "theorems": [
    "C169_assign"
   ],
   "note": ""
  },
  {
   "property": "C170",
   "status": "proved",
   "theorems": [
    "C170_signing_succeeds"
   ],
   "note": ""
  },
  {
   "property": "C171",
   "status": "proved",
   "theorems": [
    "C171_sign_verify"
   ],
   "note": ""
  },
  {
   "property": "C172",
   "status": "proved",
   "theorems": [
    "C172_unsigned"
   ],
   "note": ""
  },
  {
   "property": "C173",
   "status": "proved",
   "theorems": [
    "C173_decrypt_prints_nothing",
    "C173_outcome"
   ],
   "note": ""
  },
  {
   "property": "C174",
   "status": "proved",
   "theorems": [
    "C174_gen_symkey"
   ],
   "note": ""
  },
  {
   "property": "C175",
   "status": "proved",
   "theorems": [
    "C175_pipeline"
   ],
   "note": ""
  },
  {
   "property": "C176",
   "status": "proved",
   "theorems": [
    "C176_jwenc_jwdecrypt"
   ],
   "note": ""
  },
  {
   "property": "C177",
   "status": "proved",
   "theorems": [
    "C177_peek_jws",
    "C177_peek_jwe",
    "C177_typ_jwe",
    "C177_typ_other"
   ],
   "note": ""
  },
  {
   "property": "C178",
   "status": "proved",
   "theorems": [
    "C178_jwk_create"
   ],
   "note": ""
  },
  {
   "property": "C179",
   "status": "proved",
   "theorems": [
    "C179_jwenc_x509"
   ],
   "note": ""
  },
  {
   "property": "C180",
   "status": "proved",
   "theorems": [
    "C180_key_kind",
    "C180_not_text"
   ],
   "note": ""
  },
  {
   "property": "C181",
   "status": "proved",
   "theorems": [
    "C181_recognised",
    "C181_factory",
    "C181_json_signed"
   ],
   "note": ""
  },
  {
   "property": "C182",
   "status": "proved",
   "theorems": [
    "C182_receiver",
    "C182_sender"
   ],
   "note": ""
  },
  {
   "property": "C183",
   "status": "partial",
   "theorems": [
    "C183_algorithm_id_refuted"
   ],
   "note": "False as stated: the name of the wrapping algorithm (A128KW ...) is hashed, without its length (see C58)."
  },
  {
   "property": "C184",
   "status": "proved",
   "theorems": [
    "C184_receiver",
    "C184_sender"
   ],
   "note": ""
  },
  {
   "property": "C185",
   "status": "proved",
   "theorems": [
    "C185_jwe_sym"
   ],
   "note": ""
  },
  {
   "property": "C186",
   "status": "proved",
   "theorems": [
    "C186_jwkutil_file",
    "C186_jwkutil_stdin",
    "C186_jwenc_file",
    "C186_jwdecrypt_file"
   ],
   "note": ""
  },
  {
   "property": "C187",
   "status": "proved",
   "theorems": [
    "C187_pipe"
   ],
   "note": ""
  },
  {
   "property": "C188",
   "status": "proved",
   "theorems": [
    "C188_rsa",
    "C188_ec",
    "C188_sym",
    "C188_set",
    "C188_tells"
   ],
   "note": ""
  },
  {
   "property": "C189",
   "status": "proved",
   "theorems": [
    "C189_base"
   ],
   "note": ""
  },
  {
   "property": "C190",
   "status": "proved",
   "theorems": [
    "C190_names"
   ],
   "note": ""
  },
  {
   "property": "C191",
   "status": "partial",
   "theorems": [
    "C191_order_partial",
    "C191_nested_refuted",
    "C191_bool_refuted",
    "C191_tells"
   ],
   "note": "False as stated: repr shows the order of members of inner dictionaries and tells True from 1. Proved for dictionaries that differ in the order of their members."
  },
  {
   "property": "C192",
   "status": "proved",
   "theorems": [
    "C192_filter"
   ],
   "note": ""
  },
  {
   "property": "C193",
   "status": "proved",
   "theorems": [
    "C193_roundtrip",
    "C193_octets",
    "C193_refused",
    "C193_ints"
   ],
   "note": ""
  },
  {
   "property": "C194",
   "status": "partial",
   "theorems": [
    "C194_sym_to_jwe_refuted",
    "C194_jwe_to_sym_refuted"
   ],
   "note": "False as stated: JWE wraps with the first octets of a hash of the secret, JWE_SYM with the secret itself; both directions fail."
  },
  {
   "property": "C195",
   "status": "proved",
   "theorems": [
    "C195_certificate",
    "C195_file"
   ],
   "note": ""
  },
  {
   "property": "C196",
   "status": "proved",
   "theorems": [
    "C196_keyrep"
   ],
   "note": ""
  },
  {
   "property": "C197",
   "status": "partial",
   "theorems": [
    "C197_to_dict",
    "C197_unknown_kept",
    "C197_x5u_refuted"
   ],
   "note": "proved for unknown members; the claim for known members (x5u, x5t of a loaded key) is refuted"
  },
  {
   "property": "C198",
   "status": "proved",
   "theorems": [
    "C198_object",
    "C198_both"
   ],
   "note": ""
  },
  {
   "property": "C199",
   "status": "proved",
   "theorems": [
    "C199_key_pair",
    "C199_given_curve",
    "C199_numbers"
   ],
   "note": ""
  },
  {
   "property": "C200",
   "status": "proved",
   "theorems": [
    "C200_secret"
   ],
   "note": ""
  },
  {
   "property": "C201",
   "status": "proved",
   "theorems": [
    "C201_rsa",
    "C201_text",
    "C201_curve"
   ],
   "note": ""
  },
  {
   "property": "C202",
   "status": "proved",
   "theorems": [
    "C202_load",
    "C202_fetch"
   ],
   "note": ""
  },
  {
   "property": "C203",
   "status": "proved",
   "theorems": [
    "C203_object",
    "C203_numbers"
   ],
   "note": ""
  },
  {
   "property": "C204",
   "status": "partial",
   "theorems": [
    "C204_verify_partial",
    "C204_unchanged_partial",
    "C204_wire_refuted"
   ],
   "note": "what verify answers is proved for all keys; that it accepts keys in base64url form, its purpose, is refuted"
  },
  {
   "property": "C205",
   "status": "proved",
   "theorems": [
    "C205_parameters",
    "C205_empty",
    "C205_headers"
   ],
   "note": ""
  },
  {
   "property": "C206",
   "status": "proved",
   "theorems": [
    "C206_crit"
   ],
   "note": ""
  },
  {
   "property": "C207",
   "status": "proved",
   "theorems": [
    "C207_jwk"
   ],
   "note": ""
  },
  {
   "property": "C208",
   "status": "proved",
   "theorems": [
    "C208_no_point"
   ],
   "note": ""
  },
  {
   "property": "C209",
   "status": "partial",
   "theorems": [
    "C209_zero_refuted",
    "C209_other_partial",
    "C209_encryption_key_partial"
   ],
   "note": "proved for keys without a coordinate zero; refuted for the point of P-256 with x = 0"
  },
  {
   "property": "C210",
   "status": "proved",
   "theorems": [
    "C210_signature_value"
   ],
   "note": ""
  },
  {
   "property": "C211",
   "status": "proved",
   "theorems": [
    "C211_verify_raises"
   ],
   "note": ""
  },
  {
   "property": "C212",
   "status": "partial",
   "theorems": [
    "C212_keys_behind",
    "C212_keys_in_front",
    "C212_jwe_keys_behind",
    "C212_unusable_key_refuted"
   ],
   "note": "False for a key object without a secret in front of the right key (TypeError), and for JWE with a wrong key in front (C52, C135)."
  },
  {
   "property": "C213",
   "status": "proved",
   "theorems": [
    "C213_off_curve"
   ],
   "note": ""
  },
  {
   "property": "C214",
   "status": "partial",
   "theorems": [
    "C214_order_three",
    "C214_content_key",
    "C214_token_refuted"
   ],
   "note": "False: the point (3, 4) is on none of the curves but has order three for the code's arithmetic; one fixed token is opened by exactly the keys whose private value is not a multiple of three, otherwise TypeError is raised."
  },
  {
   "property": "C215",
   "status": "proved",
   "theorems": [
    "C215_encrypt",
    "C215_decrypt"
   ],
   "note": ""
  },
  {
   "property": "C216",
   "status": "partial",
   "theorems": [
    "C216_public_key_info",
    "C216_only_certificates",
    "C216_version_1_refuted"
   ],
   "note": "Proved for certificates of version 2 and 3. False for version 1, which has no version field: IndexError."
  },
  {
   "property": "C217",
   "status": "proved",
   "theorems": [
    "C217_first_certificate"
   ],
   "note": ""
  },
  {
   "property": "C218",
   "status": "partial",
   "theorems": [
    "C218_factory",
    "C218_fresh_instance_refuted"
   ],
   "note": "factory: proved if a key with that kid is given. False for a fresh instance: JWE().decrypt(token, keys) ignores the kid of the token."
  },
  {
   "property": "C219",
   "status": "partial",
   "theorems": [
    "C219_ten_algorithms_partial",
    "C219_forms_partial",
    "C219_given_key_refuted"
   ],
   "note": "Proved for complete keys and no content key; with a content key given by the caller every name that begins with A and ends with KW is accepted (refuted). The form of the names is proved for all arguments."
  },
  {
   "property": "C220",
   "status": "proved",
   "theorems": [
    "C220_no_text"
   ],
   "note": ""
  },
  {
   "property": "C221",
   "status": "proved",
   "theorems": [
    "C221_twos_complement"
   ],
   "note": ""
  },
  {
   "property": "C222",
   "status": "partial",
   "theorems": [
    "C222_agrees",
    "C222_trace_partial",
    "C222_no_trace_refuted"
   ],
   "note": "False: exactly what is left behind is proved: the headers stay, the segments are those of the refused token, and so are the parts if they decode. Witness: payload() then returns the payload of the refused token under the header of the accepted one."
  },
  {
   "property": "C223",
   "status": "partial",
   "theorems": [
    "C223_rsa_again",
    "C223_rsa_equality",
    "C223_sym_again",
    "C223_serialize_refuted",
    "C223_material_refuted"
   ],
   "note": "Proved: the second call returns the same and equality is unchanged (RSA: if no member is a text, which holds after deserialisation). False: a public copy cannot be serialized, and has no key, until encryption_key was called once."
  },
  {
   "property": "C224",
   "status": "proved",
   "theorems": [
    "C224_accepted"
   ],
   "note": ""
  },
  {
   "property": "C225",
   "status": "partial",
   "theorems": [
    "C225_content_partial",
    "C225_rsa_partial",
    "C225_192_partial",
    "C225_192_refuted"
   ],
   "note": "Proved for the enc values except A192GCM, and for A256GCM if the first 16 octets of the content key are not all zero. A192GCM is refuted: the key is used as one of 256 bits; which one is proved. With RSA1_5 the random sentinel must differ from the content key."
  },
  {
   "property": "C226",
   "status": "partial",
   "theorems": [
    "C226_hashed_key_partial",
    "C226_wrapped_refuted"
   ],
   "note": "False: the token of RFC 7516 A.3 is refused, because the key is hashed first. Proved: tokens wrapped under the first octets of the SHA-256 of the key are decrypted."
  },
  {
   "property": "C227",
   "status": "partial",
   "theorems": [
    "C227_agrees",
    "C227_trace_partial",
    "C227_no_trace_refuted"
   ],
   "note": "False: exactly what is left behind is proved. Witness: the object then packs to a text without dot."
  },
  {
   "property": "C228",
   "status": "partial",
   "theorems": [
    "C228_decrypt",
    "C228_encrypt_partial",
    "C228_fresh_refuted"
   ],
   "note": "Decryption: proved. Encryption: proved except for ECDH-ES+A128KW, A192KW and A256KW, for which it is false: an instance that has decrypted an RSA token encrypts under the content key of that token, whatever the random numbers."
  },
  {
   "property": "C229",
   "status": "proved",
   "theorems": [
    "C229_used",
    "C229_accepts_no_more"
   ],
   "note": ""
  },
  {
   "property": "C230",
   "status": "partial",
   "theorems": [
    "C230_agrees",
    "C230_answer",
    "C230_refused_harmless_refuted",
    "C230_key",
    "C230_bad_jwk",
    "C230_conflict"
   ],
   "note": "Proved: neither the answer nor what is left of the instance (up to the attribute key) depends on the instance. False: after refusing a JSON token the instance has the key embedded in that token and has lost its own alg, and then accepts a token signed with that key."
  },
  {
   "property": "C231",
   "status": "proved",
   "theorems": [
    "C231_rsa",
    "C231_sym",
    "C231_ec"
   ],
   "note": ""
  },
  {
   "property": "C232",
   "status": "proved",
   "theorems": [
    "C232_header",
    "C232_no_secret"
   ],
   "note": ""
  },
  {
   "property": "C233",
   "status": "proved",
   "theorems": [
    "C233_thumbprint",
    "C233_kid"
   ],
   "note": ""
  },
  {
   "property": "C234",
   "status": "partial",
   "theorems": [
    "C234_hexread_partial",
    "C234_hexread_refuted"
   ],
   "note": "Proved: the exact result after any reads. False: with more than one iteration the octets are a text (strxor uses chr of future), and hexread raises as soon as one of them is 128 or more; the octets are lost."
  },
  {
   "property": "C235",
   "status": "proved",
   "theorems": [
    "C235_injective",
    "C235_opposite"
   ],
   "note": ""
  },
  {
   "property": "C236",
   "status": "proved",
   "theorems": [
    "C236_curve_through"
   ],
   "note": ""
  },
  {
   "property": "C237",
   "status": "proved",
   "theorems": [
    "C237_formula",
    "C237_both"
   ],
   "note": ""
  },
  {
   "property": "C238",
   "status": "proved",
   "theorems": [
    "C238_intarr2bin"
   ],
   "note": ""
  },
  {
   "property": "C239",
   "status": "partial",
   "theorems": [
    "C239_text_refuted"
   ],
   "note": "False: bytes(data) of a text raises TypeError on Python 3, for every text."
  },
  {
   "property": "C240",
   "status": "proved",
   "theorems": [
    "C240_load_new",
    "C240_load_fails"
   ],
   "note": ""
  },
  {
   "property": "C241",
   "status": "partial",
   "theorems": [
    "C241_frame_partial",
    "C241_kid_refuted",
    "C241_alg_refuted",
    "C241_left_is_header",
    "C241_left_is_protected",
    "C241_refused",
    "C241_entry_refused"
   ],
   "note": "Proved: only alg, kid and typ of the caller's dictionary change. False: they do change, and a dictionary used again makes tokens their own key does not verify, or signed with the algorithm of another instance."
  },
  {
   "property": "C242",
   "status": "proved",
   "theorems": [
    "C242_shared",
    "C242_distinct",
    "C242_refused"
   ],
   "note": ""
  },
  {
   "property": "C243",
   "status": "proved",
   "theorems": [
    "C243_json_accepts",
    "C243_json_refuses",
    "C243_json_written"
   ],
   "note": ""
  },
  {
   "property": "C244",
   "status": "proved",
   "theorems": [
    "C244_last_member"
   ],
   "note": ""
  },
  {
   "property": "C245",
   "status": "proved",
   "theorems": [
    "C245_utf8_encode",
    "C245_utf8_decode"
   ],
   "note": ""
  },
  {
   "property": "C246",
   "status": "proved",
   "theorems": [
    "C246_as_unicode",
    "C246_as_bytes"
   ],
   "note": ""
  },
  {
   "property": "C247",
   "status": "proved",
   "theorems": [
    "C247_b64_text"
   ],
   "note": ""
  },
  {
   "property": "C248",
   "status": "partial",
   "theorems": [
    "C248_json_of_bytes",
    "C248_json_of_bytes_refuted"
   ],
   "note": "Proved: the UTF-8 encoding of every JSON text is read as its value. False: json.loads(bytes) takes some byte strings for UTF-16 or UTF-32 that are UTF-8 of no JSON text, such as the two octets 31 00, and accepts them."
  },
  {
   "property": "C249",
   "status": "proved",
   "theorems": [
    "C249_unpack_exact"
   ],
   "note": ""
  },
  {
   "property": "C250",
   "status": "proved",
   "theorems": [
    "C250_factory_odd"
   ],
   "note": ""
  },
  {
   "property": "C251",
   "status": "proved",
   "theorems": [
    "C251_payload_cty"
   ],
   "note": ""
  },
  {
   "property": "C252",
   "status": "proved",
   "theorems": [
    "C252_decrypt_raises"
   ],
   "note": ""
  },
  {
   "property": "C253",
   "status": "proved",
   "theorems": [
    "C253_few_hashes"
   ],
   "note": ""
  },
  {
   "property": "C254",
   "status": "proved",
   "theorems": [
    "C254_few_keys"
   ],
   "note": ""
  },
  {
   "property": "C255",
   "status": "proved",
   "theorems": [
    "C255_few_s",
    "C255_only_opposite"
   ],
   "note": ""
  },
  {
   "property": "C256",
   "status": "proved",
   "theorems": [
    "C256_public_determines",
    "C256_secret_determines"
   ],
   "note": ""
  },
  {
   "property": "C257",
   "status": "proved",
   "theorems": [
    "C257_nonce_reveals",
    "C257_same_nonce_reveals"
   ],
   "note": ""
  },
  {
   "property": "C258",
   "status": "proved",
   "theorems": [
    "C258_mulp",
    "C258_mul",
    "C258_muladdp"
   ],
   "note": ""
  },
  {
   "property": "C259",
   "status": "proved",
   "theorems": [
    "C259_falsy",
    "C259_void_kid",
    "C259_true_kid",
    "C259_by_kid",
    "C259_octets",
    "C259_written"
   ],
   "note": ""
  },
  {
   "property": "C260",
   "status": "proved",
   "theorems": [
    "C260_protected",
    "C260_only_objects",
    "C260_scalar",
    "C260_text",
    "C260_pairs"
   ],
   "note": ""
  },
  {
   "property": "C261",
   "status": "partial",
   "theorems": [
    "C261_final",
    "C261_both",
    "C261_separate_partial",
    "C261_copies_refuted"
   ],
   "note": "True if no dictionary is on both sides; otherwise the unprotected header is written as signing left it, and the token may be refused (refuted)."
  },
  {
   "property": "C262",
   "status": "partial",
   "theorems": [
    "C262_selftest_refuted",
    "C262_second_test_refuted"
   ],
   "note": "The self-test always raises (refuted); the octets computed by the model agree with its vectors for 1, 12 and 13 iterations."
  },
  {
   "property": "C263",
   "status": "partial",
   "theorems": [
    "C263_messages",
    "C263_as_nothing",
    "C263_dictionary_refuted"
   ],
   "note": "Proved: everything else is refused but a list or dictionary without items under AES-GCM, which gives exactly the token of the empty octet string (refuted: it decrypts to the empty text)."
  },
  {
   "property": "C264",
   "status": "proved",
   "theorems": [
    "C264_url",
    "C264_plain",
    "C264_padding"
   ],
   "note": ""
  },
  {
   "property": "C265",
   "status": "proved",
   "theorems": [
    "C265_accepted",
    "C265_numbers"
   ],
   "note": ""
  },
  {
   "property": "C266",
   "status": "proved",
   "theorems": [
    "C266_exactly",
    "C266_below",
    "C266_first",
    "C266_shared"
   ],
   "note": ""
  },
  {
   "property": "C267",
   "status": "partial",
   "theorems": [
    "C267_agree_partial",
    "C267_agree_refuted",
    "C267_two_ways_partial",
    "C267_two_ways_odd",
    "C267_two_ways_refuted"
   ],
   "note": "Proved for points of odd order and for curves without points of order two; false of other draws the program can make (refuted, with a 32-bit prime and a point of order six)."
  },
  {
   "property": "C268",
   "status": "proved",
   "theorems": [
    "C268_secret",
    "C268_two_secrets"
   ],
   "note": ""
  },
  {
   "property": "C269",
   "status": "proved",
   "theorems": [
    "C269_decodes",
    "C269_refuses",
    "C269_raises"
   ],
   "note": ""
  },
  {
   "property": "C270",
   "status": "proved",
   "theorems": [
    "C270_texts"
   ],
   "note": ""
  },
  {
   "property": "C271",
   "status": "proved",
   "theorems": [
    "C271_same_octets",
    "C271_texts"
   ],
   "note": ""
  },
  {
   "property": "C272",
   "status": "proved",
   "theorems": [
    "C272_same_segments",
    "C272_texts"
   ],
   "note": ""
  },
  {
   "property": "C273",
   "status": "proved",
   "theorems": [
    "C273_sizes",
    "C273_lists",
    "C273_curves",
    "C273_named"
   ],
   "note": ""
  },
  {
   "property": "C274",
   "status": "proved",
   "theorems": [
    "C274_secret",
    "C274_none",
    "C274_raises",
    "C274_number"
   ],
   "note": ""
  },
  {
   "property": "C275",
   "status": "proved",
   "theorems": [
    "C275_lengths",
    "C275_read_off"
   ],
   "note": ""
  },
  {
   "property": "C276",
   "status": "proved",
   "theorems": [
    "C276_raises",
    "C276_no_payload"
   ],
   "note": ""
  },
  {
   "property": "C277",
   "status": "proved",
   "theorems": [
    "C277_keyrep",
    "C277_verify_json",
    "C277_format_error"
   ],
   "note": ""
  },
  {
   "property": "C278",
   "status": "proved",
   "theorems": [
    "C278_raises"
   ],
   "note": ""
  },
  {
   "property": "C279",
   "status": "proved",
   "theorems": [
    "C279_raises"
   ],
   "note": ""
  },
  {
   "property": "C280",
   "status": "proved",
   "theorems": [
    "C280_raises"
   ],
   "note": ""
  },
  {
   "property": "C281",
   "status": "proved",
   "theorems": [
    "C281_serialize",
    "C281_to_dict",
    "C281_raises"
   ],
   "note": ""
  },
  {
   "property": "C282",
   "status": "proved",
   "theorems": [
    "C282_thumbprint",
    "C282_hash"
   ],
   "note": ""
  },
  {
   "property": "C283",
   "status": "proved",
   "theorems": [
    "C283_item",
    "C283_pack",
    "C283_constructor"
   ],
   "note": ""
  },
  {
   "property": "C284",
   "status": "proved",
   "theorems": [
    "C284_dump",
    "C284_each"
   ],
   "note": ""
  },
  {
   "property": "C285",
   "status": "proved",
   "theorems": [
    "C285_getitem",
    "C285_as_dict",
    "C285_key_types"
   ],
   "note": ""
  },
  {
   "property": "C286",
   "status": "proved",
   "theorems": [
    "C286_accepts",
    "C286_equal"
   ],
   "note": ""
  }
 ]
}