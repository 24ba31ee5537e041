{
"C73_transform": [],
"C73_parseval": [],
"C73_inversion": [],
"C73_injective": [],
"C73_bad_length": [],
"C74_nonlinearity": [],
"C74_bound": [],
"C74_single_entry": [],
"C75_orbits": [],
"C75_lengths": [],
"C76_log2n": [],
"C76_inner_product": [],
"C76_bilinear": [],
"C76_negative_refuted": [],
"C80_range": [],
"C80_one_entry": [],
"C80_aes": [],
"C80_sms4": [],
"C80_streebog": [],
"C80_gost": [],
"C80_aes_table": [],
"C80_streebog_label": [],
"C100_affine": [],
"C100_balanced": [],
"C100_add_affine": [],
"C100_shift": [],
"C100_permutation": [],
"C84_seeds": [
"Uint63.sub_spec",
"PrimInt63.sub",
"ClassicalDedekindReals.sig_not_dec",
"ClassicalDedekindReals.sig_forall_dec",
"Uint63.of_to_Z",
"Uint63.mulc_spec",
"PrimInt63.mulc",
"Uint63.mul_spec",
"PrimInt63.mul",
"Uint63.mod_spec",
"PrimInt63.mod",
"Uint63.ltb_spec",
"PrimInt63.ltb",
"Uint63.lsr_spec",
"PrimInt63.lsr",
"Uint63.lsl_spec",
"PrimInt63.lsl",
"Uint63.lor_spec",
"PrimInt63.lor",
"Uint63.leb_spec",
"PrimInt63.leb",
"PrimInt63.land",
"PrimInt63.int",
"FunctionalExtensionality.functional_extensionality_dep",
"Uint63.eqb_refl",
"Uint63.eqb_correct",
"PrimInt63.eqb",
"Uint63.diveucl_21_spec",
"PrimInt63.diveucl_21",
"Uint63.div_spec",
"PrimInt63.div",
"Classical_Prop.classic",
"Uint63.add_spec",
"PrimInt63.add"
],
"C84_raises": [
"PrimInt63.sub",
"PrimInt63.mulc",
"PrimInt63.mul",
"PrimInt63.lsr",
"PrimInt63.lsl",
"PrimInt63.lor",
"PrimInt63.land",
"PrimInt63.int",
"PrimInt63.eqb",
"PrimInt63.diveucl_21",
"PrimInt63.add"
],
"C84_seed_p": [
"PrimInt63.sub",
"PrimInt63.mulc",
"Uint63.mul_spec",
"PrimInt63.mul",
"Uint63.mod_spec",
"PrimInt63.mod",
"Uint63.ltb_spec",
"PrimInt63.ltb",
"PrimInt63.lsr",
"PrimInt63.lsl",
"PrimInt63.lor",
"PrimInt63.land",
"PrimInt63.int",
"PrimInt63.eqb",
"PrimInt63.diveucl_21",
"Uint63.div_spec",
"PrimInt63.div",
"Uint63.add_spec",
"PrimInt63.add"
],
"C84_seed_ab": [
"ClassicalDedekindReals.sig_not_dec",
"ClassicalDedekindReals.sig_forall_dec",
"FunctionalExtensionality.functional_extensionality_dep"
],
"C84_parameters": [
"Uint63.sub_spec",
"PrimInt63.sub",
"Uint63.of_to_Z",
"Uint63.mul_spec",
"PrimInt63.mul",
"Uint63.mod_spec",
"PrimInt63.mod",
"Uint63.ltb_spec",
"PrimInt63.ltb",
"Uint63.lsr_spec",
"PrimInt63.lsr",
"Uint63.lsl_spec",
"PrimInt63.lsl",
"Uint63.lor_spec",
"PrimInt63.lor",
"Uint63.leb_spec",
"PrimInt63.leb",
"PrimInt63.land",
"PrimInt63.int",
"Uint63.eqb_refl",
"Uint63.eqb_correct",
"PrimInt63.eqb",
"Uint63.div_spec",
"PrimInt63.div",
"Uint63.add_spec",
"PrimInt63.add"
],
"C84_requirements_refuted": [
"Uint63.sub_spec",
"PrimInt63.sub",
"Uint63.of_to_Z",
"Uint63.mul_spec",
"PrimInt63.mul",
"Uint63.mod_spec",
"PrimInt63.mod",
"Uint63.ltb_spec",
"PrimInt63.ltb",
"Uint63.lsr_spec",
"PrimInt63.lsr",
"Uint63.lsl_spec",
"PrimInt63.lsl",
"Uint63.lor_spec",
"PrimInt63.lor",
"Uint63.leb_spec",
"PrimInt63.leb",
"PrimInt63.land",
"PrimInt63.int",
"Uint63.eqb_refl",
"Uint63.eqb_correct",
"PrimInt63.eqb",
"Uint63.div_spec",
"PrimInt63.div",
"Uint63.add_spec",
"PrimInt63.add"
],
"C06_round_trip": [],
"C06_defined": [],
"C07_quarter_round": [],
"C07_inner_block": [],
"C07_block": [],
"C07_encrypt": [],
"C08_history": [],
"C08_call_position": [],
"C08_runs_disjoint": [],
"C08_counter_after": [],
"C09_split_at_block": [],
"C09_split_elsewhere_refuted": [],
"C10_counter_wraps_refuted": [],
"C10_counter_unchecked": [],
"C11_accepted_iff": [],
"C11_empty_nonce_refuted": [],
"C11_aead_empty_nonce_refuted": [],
"C11_aead_rejects": [],
"C12_quarter_round_injective": [],
"C12_quarter_round_onto": [],
"C12_inner_block_injective": [],
"C12_inner_block_onto": [],
"C12_word_function_bijective": [],
"C13_poly1305": [],
"C13_tag_size": [],
"C15_key_lengths": [],
"C15_wrong_size_refuted": [],
"C15_extra_octets_ignored": [],
"C16_encrypt": [],
"C16_decrypt_recovers": [],
"C17_never_rejects": [],
"C17_tag_recomputed_refuted": [],
"C17_decrypt_tag": [],
"C18_mac_input_injective": [],
"C18_mac_input": [],
"C19_unusable_refuted": [],
"C105_prefix": [],
"C105_unique": [],
"C105_collision": [],
"C105_cycle_refuted": [],
"C105_word": [],
"C106_seed": [],
"C20_cmac": [],
"C21_exact": [],
"C21_refuted": [],
"C21_weak_key": [],
"C22_refuted": [],
"C23_mult": [],
"C23_linear": [],
"C23_injective": [],
"C23_subkeys": [],
"C24_round_trip": [],
"C25_genuine": [],
"C25_short": [],
"C25_change": [],
"C26_rfc5297": [],
"C26_defined": [],
"C26_refuted": [],
"C26_counters": [],
"C91_result": [],
"C91_division": [],
"C91_sides": [],
"C91_refuted": [],
"C92_elements": [],
"C92_points": [],
"C92_refuted": [],
"C93_same": [],
"C93_equality": [],
"C93_refuted": [],
"C98_zero": [],
"C98_small": [],
"C98_curve25519": [
"Uint63.sub_spec",
"PrimInt63.sub",
"Uint63.of_to_Z",
"Uint63.mul_spec",
"PrimInt63.mul",
"Uint63.mod_spec",
"PrimInt63.mod",
"Uint63.ltb_spec",
"PrimInt63.ltb",
"Uint63.lsr_spec",
"PrimInt63.lsr",
"Uint63.lsl_spec",
"PrimInt63.lsl",
"Uint63.lor_spec",
"PrimInt63.lor",
"Uint63.leb_spec",
"PrimInt63.leb",
"PrimInt63.land",
"PrimInt63.int",
"Uint63.eqb_refl",
"Uint63.eqb_correct",
"PrimInt63.eqb",
"Uint63.div_spec",
"PrimInt63.div",
"Uint63.add_spec",
"PrimInt63.add"
],
"C98_collision": [],
"C98_public_keys": [
"Uint63.sub_spec",
"PrimInt63.sub",
"Uint63.of_to_Z",
"Uint63.mul_spec",
"PrimInt63.mul",
"Uint63.mod_spec",
"PrimInt63.mod",
"Uint63.ltb_spec",
"PrimInt63.ltb",
"Uint63.lsr_spec",
"PrimInt63.lsr",
"Uint63.lsl_spec",
"PrimInt63.lsl",
"Uint63.lor_spec",
"PrimInt63.lor",
"Uint63.leb_spec",
"PrimInt63.leb",
"PrimInt63.land",
"PrimInt63.int",
"Uint63.eqb_refl",
"Uint63.eqb_correct",
"PrimInt63.eqb",
"Uint63.div_spec",
"PrimInt63.div",
"Uint63.add_spec",
"PrimInt63.add"
],
"C98_refuted": [
"Uint63.sub_spec",
"PrimInt63.sub",
"Uint63.of_to_Z",
"Uint63.mul_spec",
"PrimInt63.mul",
"Uint63.mod_spec",
"PrimInt63.mod",
"Uint63.ltb_spec",
"PrimInt63.ltb",
"Uint63.lsr_spec",
"PrimInt63.lsr",
"Uint63.lsl_spec",
"PrimInt63.lsl",
"Uint63.lor_spec",
"PrimInt63.lor",
"Uint63.leb_spec",
"PrimInt63.leb",
"PrimInt63.land",
"PrimInt63.int",
"Uint63.eqb_refl",
"Uint63.eqb_correct",
"PrimInt63.eqb",
"Uint63.div_spec",
"PrimInt63.div",
"Uint63.add_spec",
"PrimInt63.add"
],
"C71_coord_size": [],
"C71_parameters": [
"Uint63.sub_spec",
"PrimInt63.sub",
"Uint63.of_to_Z",
"Uint63.mul_spec",
"PrimInt63.mul",
"Uint63.mod_spec",
"PrimInt63.mod",
"Uint63.ltb_spec",
"PrimInt63.ltb",
"Uint63.lsr_spec",
"PrimInt63.lsr",
"Uint63.lsl_spec",
"PrimInt63.lsl",
"Uint63.lor_spec",
"PrimInt63.lor",
"Uint63.leb_spec",
"PrimInt63.leb",
"PrimInt63.land",
"PrimInt63.int",
"Uint63.eqb_refl",
"Uint63.eqb_correct",
"PrimInt63.eqb",
"Uint63.div_spec",
"PrimInt63.div",
"Uint63.add_spec",
"PrimInt63.add"
],
"C71_order": [
"Uint63.sub_spec",
"PrimInt63.sub",
"Uint63.of_to_Z",
"Uint63.mul_spec",
"PrimInt63.mul",
"Uint63.mod_spec",
"PrimInt63.mod",
"Uint63.ltb_spec",
"PrimInt63.ltb",
"Uint63.lsr_spec",
"PrimInt63.lsr",
"Uint63.lsl_spec",
"PrimInt63.lsl",
"Uint63.lor_spec",
"PrimInt63.lor",
"Uint63.leb_spec",
"PrimInt63.leb",
"PrimInt63.land",
"PrimInt63.int",
"Uint63.eqb_refl",
"Uint63.eqb_correct",
"PrimInt63.eqb",
"Uint63.div_spec",
"PrimInt63.div",
"Uint63.add_spec",
"PrimInt63.add"
],
"C71_refuted": [
"Uint63.sub_spec",
"PrimInt63.sub",
"Uint63.of_to_Z",
"Uint63.mul_spec",
"PrimInt63.mul",
"Uint63.mod_spec",
"PrimInt63.mod",
"Uint63.ltb_spec",
"PrimInt63.ltb",
"Uint63.lsr_spec",
"PrimInt63.lsr",
"Uint63.lsl_spec",
"PrimInt63.lsl",
"Uint63.lor_spec",
"PrimInt63.lor",
"Uint63.leb_spec",
"PrimInt63.leb",
"PrimInt63.land",
"PrimInt63.int",
"Uint63.eqb_refl",
"Uint63.eqb_correct",
"PrimInt63.eqb",
"Uint63.div_spec",
"PrimInt63.div",
"Uint63.add_spec",
"PrimInt63.add"
],
"C61_builtin": [
"Uint63.sub_spec",
"PrimInt63.sub",
"Uint63.of_to_Z",
"Uint63.mul_spec",
"PrimInt63.mul",
"Uint63.mod_spec",
"PrimInt63.mod",
"Uint63.ltb_spec",
"PrimInt63.ltb",
"Uint63.lsr_spec",
"PrimInt63.lsr",
"Uint63.lsl_spec",
"PrimInt63.lsl",
"Uint63.lor_spec",
"PrimInt63.lor",
"Uint63.leb_spec",
"PrimInt63.leb",
"PrimInt63.land",
"PrimInt63.int",
"Uint63.eqb_refl",
"Uint63.eqb_correct",
"PrimInt63.eqb",
"Uint63.div_spec",
"PrimInt63.div",
"Uint63.add_spec",
"PrimInt63.add"
],
"C77_builtin": [
"Uint63.sub_spec",
"PrimInt63.sub",
"Uint63.of_to_Z",
"Uint63.mul_spec",
"PrimInt63.mul",
"Uint63.mod_spec",
"PrimInt63.mod",
"Uint63.ltb_spec",
"PrimInt63.ltb",
"Uint63.lsr_spec",
"PrimInt63.lsr",
"Uint63.lsl_spec",
"PrimInt63.lsl",
"Uint63.lor_spec",
"PrimInt63.lor",
"Uint63.leb_spec",
"PrimInt63.leb",
"PrimInt63.land",
"PrimInt63.int",
"Uint63.eqb_refl",
"Uint63.eqb_correct",
"PrimInt63.eqb",
"Uint63.div_spec",
"PrimInt63.div",
"Uint63.add_spec",
"PrimInt63.add"
],
"C59_closed": [],
"C59_double": [],
"C59_negate": [],
"C59_neutral": [],
"C59_constructor": [],
"C60_group": [],
"C60_associative": [],
"C60_inverse": [],
"C61_scalar_multiple": [],
"C61_prime_order": [],
"C62_any_point": [],
"C62_refuted": [],
"C63_refuted": [],
"C64_refuted": [],
"C65_refuted": [],
"C65_order_two_refuted": [],
"C66_y_from_x": [],
"C67_refuted": [],
"C77_key_agreement": [],
"C72_refuted": [],
"C72_only": [],
"C72_defined": [],
"C72_class_names": [],
"C89_secp256k1": [
"Uint63.sub_spec",
"PrimInt63.sub",
"Uint63.of_to_Z",
"Uint63.mul_spec",
"PrimInt63.mul",
"Uint63.mod_spec",
"PrimInt63.mod",
"Uint63.ltb_spec",
"PrimInt63.ltb",
"Uint63.lsr_spec",
"PrimInt63.lsr",
"Uint63.lsl_spec",
"PrimInt63.lsl",
"Uint63.lor_spec",
"PrimInt63.lor",
"Uint63.leb_spec",
"PrimInt63.leb",
"PrimInt63.land",
"PrimInt63.int",
"Uint63.eqb_refl",
"Uint63.eqb_correct",
"PrimInt63.eqb",
"Uint63.div_spec",
"PrimInt63.div",
"Uint63.add_spec",
"PrimInt63.add"
],
"C89_p192_scalar": [
"Uint63.sub_spec",
"PrimInt63.sub",
"Uint63.of_to_Z",
"Uint63.mul_spec",
"PrimInt63.mul",
"Uint63.mod_spec",
"PrimInt63.mod",
"Uint63.ltb_spec",
"PrimInt63.ltb",
"Uint63.lsr_spec",
"PrimInt63.lsr",
"Uint63.lsl_spec",
"PrimInt63.lsl",
"Uint63.lor_spec",
"PrimInt63.lor",
"Uint63.leb_spec",
"PrimInt63.leb",
"PrimInt63.land",
"PrimInt63.int",
"Uint63.eqb_refl",
"Uint63.eqb_correct",
"PrimInt63.eqb",
"Uint63.div_spec",
"PrimInt63.div",
"Uint63.add_spec",
"PrimInt63.add"
],
"C89_p521": [
"Uint63.sub_spec",
"PrimInt63.sub",
"Uint63.of_to_Z",
"Uint63.mul_spec",
"PrimInt63.mul",
"Uint63.mod_spec",
"PrimInt63.mod",
"Uint63.ltb_spec",
"PrimInt63.ltb",
"Uint63.lsr_spec",
"PrimInt63.lsr",
"Uint63.lsl_spec",
"PrimInt63.lsl",
"Uint63.lor_spec",
"PrimInt63.lor",
"Uint63.leb_spec",
"PrimInt63.leb",
"PrimInt63.land",
"PrimInt63.int",
"Uint63.eqb_refl",
"Uint63.eqb_correct",
"PrimInt63.eqb",
"Uint63.div_spec",
"PrimInt63.div",
"Uint63.add_spec",
"PrimInt63.add"
],
"C89_curve25519": [
"Uint63.sub_spec",
"PrimInt63.sub",
"Uint63.of_to_Z",
"Uint63.mul_spec",
"PrimInt63.mul",
"Uint63.mod_spec",
"PrimInt63.mod",
"Uint63.ltb_spec",
"PrimInt63.ltb",
"Uint63.lsr_spec",
"PrimInt63.lsr",
"Uint63.lsl_spec",
"PrimInt63.lsl",
"Uint63.lor_spec",
"PrimInt63.lor",
"Uint63.leb_spec",
"PrimInt63.leb",
"PrimInt63.land",
"PrimInt63.int",
"Uint63.eqb_refl",
"Uint63.eqb_correct",
"PrimInt63.eqb",
"Uint63.div_spec",
"PrimInt63.div",
"Uint63.add_spec",
"PrimInt63.add"
],
"C70_compose": [],
"C70_key_agreement": [],
"C88_assoc": [],
"C90_lists": [],
"C90_edwards": [
"Uint63.sub_spec",
"PrimInt63.sub",
"Uint63.of_to_Z",
"Uint63.mul_spec",
"PrimInt63.mul",
"Uint63.mod_spec",
"PrimInt63.mod",
"Uint63.ltb_spec",
"PrimInt63.ltb",
"Uint63.lsr_spec",
"PrimInt63.lsr",
"Uint63.lsl_spec",
"PrimInt63.lsl",
"Uint63.lor_spec",
"PrimInt63.lor",
"Uint63.leb_spec",
"PrimInt63.leb",
"PrimInt63.land",
"PrimInt63.int",
"Uint63.eqb_refl",
"Uint63.eqb_correct",
"PrimInt63.eqb",
"Uint63.div_spec",
"PrimInt63.div",
"Uint63.add_spec",
"PrimInt63.add"
],
"C90_montgomery": [
"Uint63.sub_spec",
"PrimInt63.sub",
"Uint63.of_to_Z",
"Uint63.mul_spec",
"PrimInt63.mul",
"Uint63.mod_spec",
"PrimInt63.mod",
"Uint63.ltb_spec",
"PrimInt63.ltb",
"Uint63.lsr_spec",
"PrimInt63.lsr",
"Uint63.lsl_spec",
"PrimInt63.lsl",
"Uint63.lor_spec",
"PrimInt63.lor",
"Uint63.leb_spec",
"PrimInt63.leb",
"PrimInt63.land",
"PrimInt63.int",
"Uint63.eqb_refl",
"Uint63.eqb_correct",
"PrimInt63.eqb",
"Uint63.div_spec",
"PrimInt63.div",
"Uint63.add_spec",
"PrimInt63.add"
],
"C90_gost_refuted": [
"Uint63.sub_spec",
"PrimInt63.sub",
"Uint63.of_to_Z",
"Uint63.mul_spec",
"PrimInt63.mul",
"Uint63.mod_spec",
"PrimInt63.mod",
"Uint63.ltb_spec",
"PrimInt63.ltb",
"Uint63.lsr_spec",
"PrimInt63.lsr",
"Uint63.lsl_spec",
"PrimInt63.lsl",
"Uint63.lor_spec",
"PrimInt63.lor",
"Uint63.leb_spec",
"PrimInt63.leb",
"PrimInt63.land",
"PrimInt63.int",
"Uint63.eqb_refl",
"Uint63.eqb_correct",
"PrimInt63.eqb",
"Uint63.div_spec",
"PrimInt63.div",
"Uint63.add_spec",
"PrimInt63.add"
],
"C90_ed25519_refuted": [
"Uint63.sub_spec",
"PrimInt63.sub",
"Uint63.of_to_Z",
"Uint63.mul_spec",
"PrimInt63.mul",
"Uint63.mod_spec",
"PrimInt63.mod",
"Uint63.ltb_spec",
"PrimInt63.ltb",
"Uint63.lsr_spec",
"PrimInt63.lsr",
"Uint63.lsl_spec",
"PrimInt63.lsl",
"Uint63.lor_spec",
"PrimInt63.lor",
"Uint63.leb_spec",
"PrimInt63.leb",
"PrimInt63.land",
"PrimInt63.int",
"Uint63.eqb_refl",
"Uint63.eqb_correct",
"PrimInt63.eqb",
"Uint63.div_spec",
"PrimInt63.div",
"Uint63.add_spec",
"PrimInt63.add"
],
"C90_m511_refuted": [
"Uint63.sub_spec",
"PrimInt63.sub",
"Uint63.of_to_Z",
"Uint63.mul_spec",
"PrimInt63.mul",
"Uint63.mod_spec",
"PrimInt63.mod",
"Uint63.ltb_spec",
"PrimInt63.ltb",
"Uint63.lsr_spec",
"PrimInt63.lsr",
"Uint63.lsl_spec",
"PrimInt63.lsl",
"Uint63.lor_spec",
"PrimInt63.lor",
"Uint63.leb_spec",
"PrimInt63.leb",
"PrimInt63.land",
"PrimInt63.int",
"Uint63.eqb_refl",
"Uint63.eqb_correct",
"PrimInt63.eqb",
"Uint63.div_spec",
"PrimInt63.div",
"Uint63.add_spec",
"PrimInt63.add"
],
"C90_construct_refuted": [],
"C90_generator_refuted": [],
"C87_point": [],
"C87_add": [],
"C87_double": [],
"C87_identity": [],
"C87_scalar": [],
"C87_order_refuted": [],
"C87_negative_refuted": [],
"C88_point": [],
"C88_accepted_refuted": [],
"C88_add": [],
"C88_sum": [],
"C88_complete": [],
"C88_double_refuted": [],
"C01_ecc_edges": [],
"C05_printable": [],
"C19_errors": [],
"C20_bad_key": [],
"C26_bad_key": [],
"C26_empty": [],
"C29_zero_digest": [],
"C29_index": [],
"C64_equality": [],
"C31_no_key": [],
"C87_zero": [],
"C88_zero": [],
"C88_negate": [],
"C34_setters": [],
"C34_newKey": [],
"C48_not_positive": [],
"C43_checks": [],
"C01_int_to_string_shortest": [],
"C01_int_to_string_total": [],
"C01_int_to_string_padded": [],
"C01_int_to_string_does_not_fit": [],
"C01_int_to_string_negative": [],
"C01_pad_zero_is_no_pad": [],
"C01_round_trip": [],
"C01_ecc_int_to_string": [],
"C01_ecc_padding_refuted": [],
"C02_string_round_trip_padded": [],
"C02_string_round_trip_strips": [],
"C02_string_to_int_value": [],
"C03_round_trip_iff": [],
"C03_encode_total": [],
"C03_decode_of_encode": [],
"C03_lossless_refuted": [],
"C04_padto_is_ignored": [],
"C04_padto_restores_length_refuted": [],
"C04_base_N_decode_padded": [],
"C05_encoder_alphabet_and_length": [],
"C05_decoder_accepts_alphabet": [],
"C05_decoder_rejects_others": [],
"C05_encoder_injective": [],
"C05_alphabets": [],
"C05_rfc1924_length_refuted": [],
"C78_xor_defined": [],
"C78_xor_octet_wise": [],
"C78_xor_involutive": [],
"C78_xor_commutative": [],
"C78_xor_min": [],
"C52_factorization": [],
"C52_exact": [],
"C52_small": [],
"C52_prime_factors_refuted": [],
"C53_phi": [],
"C53_small": [],
"C53_refuted": [],
"C54_carmichael": [],
"C54_small": [],
"C54_factorized": [],
"C55_order": [],
"C55_unreduced": [],
"C55_order_refuted": [],
"C55_refused": [],
"C55_trivial_modulus": [],
"C56_largest": [],
"C56_zero_diverges": [],
"C56_zero_refuted": [],
"C56_kinda_order": [],
"C27_histories": [],
"C27_digest_pure": [],
"C27_rekey_refuted": [],
"C28_rfc2104": [],
"C28_long_keys": [],
"C28_long_keys_refuted": [],
"C29_rfc2898": [],
"C29_limits": [],
"C29_python27_always_raises": [],
"C29_python27_refuted": [],
"C29_wpa_psk": [],
"C30_exact": [],
"C30_length": [],
"C30_prefix": [],
"C30_ragged": [],
"C30_long_raises": [],
"C30_defined_refuted": [],
"C44_jacobi": [],
"C44_bad_arguments": [],
"C94_equivalent": [],
"C94_three": [],
"C94_refuted": [],
"C95_equivalent": [],
"C95_refuted": [],
"C95_passphrase": [],
"C96_injective": [],
"C96_reuse": [],
"C96_malleable": [],
"C31_ieee": [],
"C31_padding_injective": [],
"C31_bad_key": [],
"C32_bijection": [],
"C32_keys_differ": [],
"C33_frame": [],
"C33_unambiguous": [],
"C33_bad_arguments": [],
"C33_draft2_refuted": [],
"C33_callable_refuted": [],
"C34_cache_transparent": [],
"C35_setPnBytes_refuted": [],
"C36_injective": [],
"C37_phase1": [],
"C37_last13": [],
"C37_exactly_when": [],
"C37_refuted": [],
"C68_refuted": [],
"C68_equation_refuted": [],
"C68_scalar_refuted": [],
"C69_refuted": [],
"C69_methods_refuted": [],
"C69_opposite_refuted": [],
"C70_cswap": [],
"C70_ladder": [],
"C70_every_x": [],
"C70_unreduced": [],
"C99_multiplicative": [],
"C99_modulus": [],
"C99_periodic": [],
"C99_coprime": [],
"C99_reciprocity": [],
"C99_supplements": [],
"C99_orders": [],
"C99_orders_small": [],
"C38_arithmetic": [],
"C38_power": [],
"C38_equality": [],
"C38_int_equality_refuted": [],
"C38_is_element_raises": [],
"C39_division": [],
"C39_int_divided_by_element": [],
"C39_zero_raises": [],
"C39_negative_refuted": [],
"C40_inverse": [],
"C41_gcd2": [],
"C41_gcd": [],
"C41_lcm": [],
"C41_lcm_zeros_refuted": [],
"C42_modular_exp": [],
"C42_negative": [],
"C43_multiply": [],
"C43_power": [],
"C43_unreduced_base_refuted": [],
"C43_bad_modulus": [],
"C79_digits": [
"Uint63.sub_spec",
"PrimInt63.sub",
"ClassicalDedekindReals.sig_not_dec",
"ClassicalDedekindReals.sig_forall_dec",
"Uint63.of_to_Z",
"Uint63.mulc_spec",
"PrimInt63.mulc",
"Uint63.mul_spec",
"PrimInt63.mul",
"Uint63.ltb_spec",
"PrimInt63.ltb",
"Uint63.lsr_spec",
"PrimInt63.lsr",
"Uint63.lsl_spec",
"PrimInt63.lsl",
"Uint63.lor_spec",
"PrimInt63.lor",
"Uint63.leb_spec",
"PrimInt63.leb",
"PrimInt63.land",
"PrimInt63.int",
"FunctionalExtensionality.functional_extensionality_dep",
"Uint63.eqb_refl",
"Uint63.eqb_correct",
"PrimInt63.eqb",
"Uint63.diveucl_21_spec",
"PrimInt63.diveucl_21",
"Classical_Prop.classic",
"Uint63.add_spec",
"PrimInt63.add"
],
"C79_truncation": [
"Uint63.sub_spec",
"PrimInt63.sub",
"ClassicalDedekindReals.sig_not_dec",
"ClassicalDedekindReals.sig_forall_dec",
"Uint63.of_to_Z",
"Uint63.mulc_spec",
"PrimInt63.mulc",
"Uint63.mul_spec",
"PrimInt63.mul",
"Uint63.ltb_spec",
"PrimInt63.ltb",
"Uint63.lsr_spec",
"PrimInt63.lsr",
"Uint63.lsl_spec",
"PrimInt63.lsl",
"Uint63.lor_spec",
"PrimInt63.lor",
"Uint63.leb_spec",
"PrimInt63.leb",
"PrimInt63.land",
"PrimInt63.int",
"FunctionalExtensionality.functional_extensionality_dep",
"Uint63.eqb_refl",
"Uint63.eqb_correct",
"PrimInt63.eqb",
"Uint63.diveucl_21_spec",
"PrimInt63.diveucl_21",
"Classical_Prop.classic",
"Uint63.add_spec",
"PrimInt63.add"
],
"C79_default": [
"PrimInt63.sub",
"PrimInt63.mulc",
"PrimInt63.mul",
"PrimInt63.lsr",
"PrimInt63.lsl",
"PrimInt63.lor",
"PrimInt63.land",
"PrimInt63.int",
"PrimInt63.eqb",
"PrimInt63.diveucl_21",
"PrimInt63.add"
],
"C79_zero_refuted": [
"Uint63.sub_spec",
"PrimInt63.sub",
"ClassicalDedekindReals.sig_not_dec",
"ClassicalDedekindReals.sig_forall_dec",
"Uint63.of_to_Z",
"Uint63.mulc_spec",
"PrimInt63.mulc",
"Uint63.mul_spec",
"PrimInt63.mul",
"Uint63.ltb_spec",
"PrimInt63.ltb",
"Uint63.lsr_spec",
"PrimInt63.lsr",
"Uint63.lsl_spec",
"PrimInt63.lsl",
"Uint63.lor_spec",
"PrimInt63.lor",
"Uint63.leb_spec",
"PrimInt63.leb",
"PrimInt63.land",
"PrimInt63.int",
"FunctionalExtensionality.functional_extensionality_dep",
"Uint63.eqb_refl",
"Uint63.eqb_correct",
"PrimInt63.eqb",
"Uint63.diveucl_21_spec",
"PrimInt63.diveucl_21",
"Classical_Prop.classic",
"Uint63.add_spec",
"PrimInt63.add"
],
"C79_large": [
"PrimInt63.sub",
"PrimInt63.mulc",
"PrimInt63.mul",
"PrimInt63.lsr",
"PrimInt63.lsl",
"PrimInt63.lor",
"PrimInt63.land",
"PrimInt63.int",
"PrimInt63.eqb",
"PrimInt63.diveucl_21",
"PrimInt63.add"
],
"C79_negative": [
"PrimInt63.sub",
"PrimInt63.mulc",
"PrimInt63.mul",
"PrimInt63.lsr",
"PrimInt63.lsl",
"PrimInt63.lor",
"PrimInt63.land",
"PrimInt63.int",
"PrimInt63.eqb",
"PrimInt63.diveucl_21",
"PrimInt63.add"
],
"C49_is_prime": [],
"C49_is_prime_defined": [],
"C49_is_prime_small": [],
"C49_fermat_little_test": [],
"C49_rabin_miller": [],
"C50_is_prime_refuted": [],
"C50_criterion": [],
"C51_strong_test": [],
"C51_quarter": [],
"C57_next_prime": [],
"C58_smallprimes": [],
"C58_primes_to_5k": [],
"C97_padded": [],
"C97_shortest": [],
"C97_base_N": [],
"C97_b94": [],
"C97_refuted": [],
"C45_square_root": [],
"C46_overflow": [],
"C46_p224_refuted": [],
"C47_modular_sqrt": [],
"C47_even_prime_refuted": [],
"C47_two": [],
"C48_legendre": [],
"C48_two_refuted": [],
"C101_decimal": [],
"C101_form": [],
"C101_point": [],
"C101_element": [],
"C101_element_refuted": [],
"C101_edwards_refuted": [],
"C101_montgomery": [],
"C102_sizes": [],
"C103_order": [],
"C103_aes": [],
"C103_sms4": [],
"C103_streebog": [],
"C103_gost": [],
"C103_inverse": [],
"C104_points_refuted": [],
"C104_michael_refuted": [],
"C104_permutation_refuted": [],
"C61_gost": [
"Uint63.sub_spec",
"PrimInt63.sub",
"Uint63.of_to_Z",
"Uint63.mul_spec",
"PrimInt63.mul",
"Uint63.mod_spec",
"PrimInt63.mod",
"Uint63.ltb_spec",
"PrimInt63.ltb",
"Uint63.lsr_spec",
"PrimInt63.lsr",
"Uint63.lsl_spec",
"PrimInt63.lsl",
"Uint63.lor_spec",
"PrimInt63.lor",
"Uint63.leb_spec",
"PrimInt63.leb",
"PrimInt63.land",
"PrimInt63.int",
"Uint63.eqb_refl",
"Uint63.eqb_correct",
"PrimInt63.eqb",
"Uint63.div_spec",
"PrimInt63.div",
"Uint63.add_spec",
"PrimInt63.add"
],
"C66_builtin": [
"Uint63.sub_spec",
"PrimInt63.sub",
"Uint63.of_to_Z",
"Uint63.mul_spec",
"PrimInt63.mul",
"Uint63.mod_spec",
"PrimInt63.mod",
"Uint63.ltb_spec",
"PrimInt63.ltb",
"Uint63.lsr_spec",
"PrimInt63.lsr",
"Uint63.lsl_spec",
"PrimInt63.lsl",
"Uint63.lor_spec",
"PrimInt63.lor",
"Uint63.leb_spec",
"PrimInt63.leb",
"PrimInt63.land",
"PrimInt63.int",
"Uint63.eqb_refl",
"Uint63.eqb_correct",
"PrimInt63.eqb",
"Uint63.div_spec",
"PrimInt63.div",
"Uint63.add_spec",
"PrimInt63.add"
],
"C81_key_range": [],
"C81_key_bijection": [],
"C81_refuted": [],
"C82_seed": [],
"C82_refuted": [],
"C83_isomorphism": [
"Uint63.sub_spec",
"PrimInt63.sub",
"Uint63.of_to_Z",
"Uint63.mul_spec",
"PrimInt63.mul",
"Uint63.mod_spec",
"PrimInt63.mod",
"Uint63.ltb_spec",
"PrimInt63.ltb",
"Uint63.lsr_spec",
"PrimInt63.lsr",
"Uint63.lsl_spec",
"PrimInt63.lsl",
"Uint63.lor_spec",
"PrimInt63.lor",
"Uint63.leb_spec",
"PrimInt63.leb",
"PrimInt63.land",
"PrimInt63.int",
"Uint63.eqb_refl",
"Uint63.eqb_correct",
"PrimInt63.eqb",
"Uint63.div_spec",
"PrimInt63.div",
"Uint63.add_spec",
"PrimInt63.add"
],
"C85_embedding": [
"Uint63.sub_spec",
"PrimInt63.sub",
"Uint63.of_to_Z",
"Uint63.mul_spec",
"PrimInt63.mul",
"Uint63.mod_spec",
"PrimInt63.mod",
"Uint63.ltb_spec",
"PrimInt63.ltb",
"Uint63.lsr_spec",
"PrimInt63.lsr",
"Uint63.lsl_spec",
"PrimInt63.lsl",
"Uint63.lor_spec",
"PrimInt63.lor",
"Uint63.leb_spec",
"PrimInt63.leb",
"PrimInt63.land",
"PrimInt63.int",
"Uint63.eqb_refl",
"Uint63.eqb_correct",
"PrimInt63.eqb",
"Uint63.div_spec",
"PrimInt63.div",
"Uint63.add_spec",
"PrimInt63.add"
],
"C86_strength": [],
"C86_refuted": [],
"C14_almost_universal": [],
"C14_polynomials_differ": [],
"C89_quarter": [],
"C89_block": [],
"C89_chacha": [],
"C89_poly": [],
"C89_otk": [],
"C89_aead": [],
"C89_subkey": [],
"C89_cmac": [],
"C89_siv": [],
"C89_hmac": [],
"C89_prf": [],
"C89_michael": [],
"C89_tkip_mic": [],
"C89_tkip": [],
"C89_tkip_refuted": [],
"C89_rfc1924": [],
"C89_p192": [],
"C89_small_curve": [],
"C89_x962": [],
"C89_galois": []
}