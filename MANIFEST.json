{
 "claims": [
  {
   "property": "C01",
   "status": "proved",
   "theorems": [
    "C01_sha256_standard",
    "C01_sha256_hash_standard"
   ],
   "note": ""
  },
  {
   "property": "C02",
   "status": "proved",
   "theorems": [
    "C02_sha1_standard",
    "C02_sha1_hash_standard"
   ],
   "note": ""
  },
  {
   "property": "C03",
   "status": "proved",
   "theorems": [
    "C03_sha512_standard",
    "C03_sha512_hash_standard"
   ],
   "note": ""
  },
  {
   "property": "C04",
   "status": "proved",
   "theorems": [
    "C04_sha384_standard",
    "C04_sha384_hash_standard"
   ],
   "note": ""
  },
  {
   "property": "C05",
   "status": "proved",
   "theorems": [
    "C05_sha512_256_standard",
    "C05_sha512_256_hash_standard"
   ],
   "note": ""
  },
  {
   "property": "C06",
   "status": "proved",
   "theorems": [
    "C06_ripemd160_standard",
    "C06_ripemd160_hash_standard"
   ],
   "note": ""
  },
  {
   "property": "C07",
   "status": "proved",
   "theorems": [
    "C07_siphash_standard",
    "C07_hash_with_keys"
   ],
   "note": ""
  },
  {
   "property": "C08",
   "status": "proved",
   "theorems": [
    "C08_hmac_rfc2104",
    "C08_hmac_algo",
    "C08_hmac_siphash",
    "C08_hmac_sha256t",
    "C08_hmac_stacked"
   ],
   "note": ""
  },
  {
   "property": "C09",
   "status": "proved",
   "theorems": [
    "C09_tagged_standard"
   ],
   "note": ""
  },
  {
   "property": "C10",
   "status": "proved",
   "theorems": [
    "C10_split_algo",
    "C10_split_siphash",
    "C10_split_sha256t",
    "C10_split_hmac",
    "C10_hash_byte_chunks"
   ],
   "note": ""
  },
  {
   "property": "C11",
   "status": "proved",
   "theorems": [
    "C11_count_algo",
    "C11_count_new",
    "C11_count_from_midstate",
    "C11_count_siphash",
    "C11_count_hmac",
    "C11_count_every_engine"
   ],
   "note": ""
  },
  {
   "property": "C12",
   "status": "proved",
   "theorems": [
    "C12_no_panic",
    "C12_no_panic_siphash",
    "C12_input_panics_iff",
    "C12_finalize_panics_iff",
    "C12_only_overflow",
    "C12_no_panic_every_engine"
   ],
   "note": ""
  },
  {
   "property": "C13",
   "status": "proved",
   "theorems": [
    "C13_overflow_exact",
    "C13_overflow_differs",
    "C13_wrap_refuted",
    "C13_siphash"
   ],
   "note": "C13_overflow_exact is the full behaviour; C13_overflow_differs says the wrapped digest is not the standard one unless an explicit collision is found; C13_wrap_refuted is a concrete wrap."
  },
  {
   "property": "C14",
   "status": "proved",
   "theorems": [
    "C14_sha_ni",
    "C14_sha_ni_hash"
   ],
   "note": ""
  },
  {
   "property": "C15",
   "status": "proved",
   "theorems": [
    "C15_small_hash_block",
    "C15_small_hash"
   ],
   "note": ""
  },
  {
   "property": "C16",
   "status": "proved",
   "theorems": [
    "C16_const_hash",
    "C16_const_hash_is_hash"
   ],
   "note": ""
  },
  {
   "property": "C17",
   "status": "proved",
   "theorems": [
    "C17_hash_tag"
   ],
   "note": ""
  },
  {
   "property": "C18",
   "status": "proved",
   "theorems": [
    "C18_sha256_resume"
   ],
   "note": ""
  },
  {
   "property": "C19",
   "status": "proved",
   "theorems": [
    "C19_sha1_resume"
   ],
   "note": ""
  },
  {
   "property": "C20",
   "status": "proved",
   "theorems": [
    "C20_ripemd160_resume_refuted",
    "C20_ripemd160_midstate_reversed"
   ],
   "note": "The code violates the resume property: C20_ripemd160_resume_refuted; C20_ripemd160_midstate_reversed says exactly what it does instead."
  },
  {
   "property": "C21",
   "status": "proved",
   "theorems": [
    "C21_sha512_resume_refuted"
   ],
   "note": "The code violates the resume property: from_midstate panics for every input (C21_sha512_resume_refuted)."
  },
  {
   "property": "C22",
   "status": "proved",
   "theorems": [
    "C22_siphash_resume_exact",
    "C22_siphash_resume_always_wrong",
    "C22_siphash_resume_refuted"
   ],
   "note": "The code violates the resume property: refuted by a witness, shown wrong for every non-empty engine, and the exact behaviour is C22_siphash_resume_exact."
  },
  {
   "property": "C23",
   "status": "proved",
   "theorems": [
    "C23_hmac_resume_fresh",
    "C23_hmac_resume_refuted",
    "C23_hmac_resume_exact",
    "C23_hmac_resume_wrong"
   ],
   "note": "Holds before a message block is consumed (C23_hmac_resume_fresh), refuted afterwards by a witness; the exact result is C23_hmac_resume_exact, and C23_hmac_resume_wrong says it is wrong for every non-empty message up to explicit collisions."
  },
  {
   "property": "C24",
   "status": "proved",
   "theorems": [
    "C24_from_midstate_panics",
    "C24_from_midstate_siphash"
   ],
   "note": ""
  },
  {
   "property": "C25",
   "status": "proved",
   "theorems": [
    "C25_decides_equality"
   ],
   "note": ""
  },
  {
   "property": "C26",
   "status": "proved",
   "theorems": [
    "C26_panics_on_length",
    "C26_never_out_of_range"
   ],
   "note": ""
  },
  {
   "property": "C27",
   "status": "proved",
   "theorems": [
    "C27_trace_independent",
    "C27_reads_everything"
   ],
   "note": ""
  },
  {
   "property": "C28",
   "status": "proved",
   "theorems": [
    "C28_from_slice"
   ],
   "note": ""
  },
  {
   "property": "C29",
   "status": "proved",
   "theorems": [
    "C29_conversions",
    "C29_all_zeros",
    "C29_digest_length"
   ],
   "note": ""
  },
  {
   "property": "C30",
   "status": "proved",
   "theorems": [
    "C30_display_from_str"
   ],
   "note": ""
  },
  {
   "property": "C31",
   "status": "proved",
   "theorems": [
    "C31_from_str_exact",
    "C31_accepts",
    "C31_denotes_fun",
    "C31_error"
   ],
   "note": ""
  },
  {
   "property": "C32",
   "status": "proved",
   "theorems": [
    "C32_text_forms",
    "C32_text_length",
    "C32_text_injective"
   ],
   "note": ""
  },
  {
   "property": "C33",
   "status": "proved",
   "theorems": [
    "C33_roundtrip",
    "C33_roundtrip_as_bytes"
   ],
   "note": ""
  },
  {
   "property": "C34",
   "status": "proved",
   "theorems": [
    "C34_never_panics",
    "C34_human_readable",
    "C34_compact"
   ],
   "note": ""
  },
  {
   "property": "C35",
   "status": "proved",
   "theorems": [
    "C35_schema_admits",
    "C35_schema_converse_refuted",
    "C35_schema_hmac_large"
   ],
   "note": "Forward direction proved; the converse is refuted for every type with a schema, and the schema of hmac::Hash<N> is shown wrong for 2^31 <= N < 2^32."
  },
  {
   "property": "C36",
   "status": "proved",
   "theorems": [
    "C36_total_order",
    "C36_display_order"
   ],
   "note": ""
  },
  {
   "property": "C37",
   "status": "proved",
   "theorems": [
    "C37_write_all_of_it",
    "C37_writes_are_inputs",
    "C37_digest_of_writes"
   ],
   "note": ""
  },
  {
   "property": "C38",
   "status": "proved",
   "theorems": [
    "C38_interfaces_agree",
    "C38_engine_interfaces_agree",
    "C38_u64_inverse"
   ],
   "note": ""
  },
  {
   "property": "C39",
   "status": "proved",
   "theorems": [
    "C39_keys_preserved"
   ],
   "note": ""
  },
  {
   "property": "C40",
   "status": "proved",
   "theorems": [
    "C40_each_its_own",
    "C40_no_panic",
    "C40_frame"
   ],
   "note": ""
  },
  {
   "property": "C41",
   "status": "proved",
   "theorems": [
    "C41_loads_in_bounds",
    "C41_load_value"
   ],
   "note": ""
  },
  {
   "property": "C42",
   "status": "proved",
   "theorems": [
    "C42_zero_padding",
    "C42_long_key"
   ],
   "note": ""
  },
  {
   "property": "C43",
   "status": "proved",
   "theorems": [
    "C43_hmac_new_panics",
    "C43_hmac_new_large",
    "C43_hmac_new_crate"
   ],
   "note": ""
  },
  {
   "property": "C44",
   "status": "proved",
   "theorems": [
    "C44_collision",
    "C44_collision_truncated"
   ],
   "note": ""
  },
  {
   "property": "C45",
   "status": "proved",
   "theorems": [
    "C45_domain_separation"
   ],
   "note": ""
  },
  {
   "property": "C46",
   "status": "proved",
   "theorems": [
    "C46_length_extension_sha256",
    "C46_length_extension_sha1"
   ],
   "note": ""
  },
  {
   "property": "C47",
   "status": "proved",
   "theorems": [
    "C47_sha256_k",
    "C47_sha256_k_const",
    "C47_sha256_k_simd",
    "C47_sha512_k",
    "C47_sha256_iv",
    "C47_sha256_iv_const",
    "C47_sha512_iv",
    "C47_sha384_iv",
    "C47_sha512_256_iv",
    "C47_ripemd_constants",
    "C47_ripemd_order",
    "C47_sha1_constants",
    "C47_sha1_ripemd_iv",
    "C47_siphash_constants"
   ],
   "note": ""
  },
  {
   "property": "C48",
   "status": "proved",
   "theorems": [
    "C48_index",
    "C48_index_byte"
   ],
   "note": ""
  },
  {
   "property": "C49",
   "status": "proved",
   "theorems": [
    "C49_every_block",
    "C49_blocks_recorded"
   ],
   "note": ""
  },
  {
   "property": "C50",
   "status": "proved",
   "theorems": [
    "C50_stale_buffer"
   ],
   "note": ""
  },
  {
   "property": "C51",
   "status": "proved",
   "theorems": [
    "C51_checked_digest"
   ],
   "note": ""
  },
  {
   "property": "C52",
   "status": "proved",
   "theorems": [
    "C52_portable"
   ],
   "note": ""
  },
  {
   "property": "C53",
   "status": "proved",
   "theorems": [
    "C53_hmac_collision"
   ],
   "note": ""
  },
  {
   "property": "C54",
   "status": "proved",
   "theorems": [
    "C54_inherent_hash",
    "C54_inherent_is_trait",
    "C54_from_engine"
   ],
   "note": ""
  },
  {
   "property": "C55",
   "status": "proved",
   "theorems": [
    "C55_equal_hash",
    "C55_prefix_free",
    "C55_bytes_prefix_free"
   ],
   "note": ""
  },
  {
   "property": "C56",
   "status": "proved",
   "theorems": [
    "C56_error_text",
    "C56_numeral_unique",
    "C56_error_text_injective"
   ],
   "note": ""
  },
  {
   "property": "C57",
   "status": "proved",
   "theorems": [
    "C57_utf8",
    "C57_visit_bytes_errors"
   ],
   "note": ""
  },
  {
   "property": "C58",
   "status": "proved",
   "theorems": [
    "C58_rounds_permute",
    "C58_keys_never_merge",
    "C58_midstates_never_merge"
   ],
   "note": ""
  },
  {
   "property": "C59",
   "status": "proved",
   "theorems": [
    "C59_rounds_permute",
    "C59_fixed_points",
    "C59_ripemd_lines"
   ],
   "note": ""
  },
  {
   "property": "C60",
   "status": "proved",
   "theorems": [
    "C60_every_build",
    "C60_checked",
    "C60_unchecked_never_panics"
   ],
   "note": ""
  },
  {
   "property": "C61",
   "status": "proved",
   "theorems": [
    "C61_tag_from_midstate",
    "C61_tag_fresh"
   ],
   "note": ""
  },
  {
   "property": "C62",
   "status": "proved",
   "theorems": [
    "C62_programs",
    "C62_adaptive"
   ],
   "note": ""
  },
  {
   "property": "C63",
   "status": "proved",
   "theorems": [
    "C63_panics",
    "C63_unchecked"
   ],
   "note": ""
  },
  {
   "property": "C64",
   "status": "proved",
   "theorems": [
    "C64_cut"
   ],
   "note": ""
  },
  {
   "property": "C65",
   "status": "proved",
   "theorems": [
    "C65_format",
    "C65_unique",
    "C65_count",
    "C65_parse",
    "C65_plain"
   ],
   "note": ""
  },
  {
   "property": "C66",
   "status": "proved",
   "theorems": [
    "C66_bits",
    "C66_octets",
    "C66_injective",
    "C66_ripemd160"
   ],
   "note": ""
  },
  {
   "property": "C67",
   "status": "proved",
   "theorems": [
    "C67_erase",
    "C67_lengths_only",
    "C67_block"
   ],
   "note": "The trace covers the block functions; the SipHash rounds (straight-line code without arrays) are single events."
  },
  {
   "property": "C68",
   "status": "proved",
   "theorems": [
    "C68_work",
    "C68_linear"
   ],
   "note": ""
  },
  {
   "property": "C69",
   "status": "proved",
   "theorems": [
    "C69_cast_same_place",
    "C69_view",
    "C69_write",
    "C69_hmac_exact",
    "C69_hmac_place",
    "C69_hmac_refuted"
   ],
   "note": "Holds for the repr(transparent) types; for hmac::Hash<N> the exact condition is C69_hmac_exact and C69_hmac_refuted gives an allowed layout for which the cast is undefined."
  },
  {
   "property": "C70",
   "status": "proved",
   "theorems": [
    "C70_programs",
    "C70_adaptive"
   ],
   "note": ""
  },
  {
   "property": "C71",
   "status": "proved",
   "theorems": [
    "C71_hash",
    "C71_chunks",
    "C71_keyed",
    "C71_const"
   ],
   "note": ""
  },
  {
   "property": "C72",
   "status": "proved",
   "theorems": [
    "C72_decides",
    "C72_refuses"
   ],
   "note": ""
  },
  {
   "property": "C73",
   "status": "proved",
   "theorems": [
    "C73_kinds",
    "C73_hmac",
    "C73_block",
    "C73_keyed"
   ],
   "note": ""
  },
  {
   "property": "C74",
   "status": "proved",
   "theorems": [
    "C74_from_slice",
    "C74_from_str",
    "C74_from_str_error",
    "C74_views",
    "C74_zeros",
    "C74_len",
    "C74_index",
    "C74_order",
    "C74_hash",
    "C74_from_engine",
    "C74_error_new"
   ],
   "note": ""
  },
  {
   "property": "C75",
   "status": "proved",
   "theorems": [
    "C75_digest_of_writes",
    "C75_writes_are_inputs"
   ],
   "note": ""
  },
  {
   "property": "C76",
   "status": "proved",
   "theorems": [
    "C76_lengths_only",
    "C76_erase",
    "C76_hash",
    "C76_digest",
    "C76_keyed",
    "C76_block"
   ],
   "note": ""
  },
  {
   "property": "C77",
   "status": "proved",
   "theorems": [
    "C77_exact",
    "C77_lengths_only",
    "C77_erase"
   ],
   "note": ""
  },
  {
   "property": "C78",
   "status": "proved",
   "theorems": [
    "C78_formatted",
    "C78_plain",
    "C78_parse",
    "C78_error_text"
   ],
   "note": ""
  },
  {
   "property": "C79",
   "status": "proved",
   "theorems": [
    "C79_deserialize",
    "C79_answers_fun",
    "C79_roundtrip",
    "C79_n"
   ],
   "note": ""
  },
  {
   "property": "C80",
   "status": "proved",
   "theorems": [
    "C80_exact",
    "C80_own_text",
    "C80_readable_refuted",
    "C80_large_refuted",
    "C80_names_refuted"
   ],
   "note": "The exact strings admitted are C80_exact; that admitted strings can be read, that large hmac::Hash types have a right schema and that schema names are unique is refuted by C80_readable_refuted, C80_large_refuted, C80_names_refuted."
  },
  {
   "property": "C81",
   "status": "proved",
   "theorems": [
    "C81_equal_hash",
    "C81_prefix_free"
   ],
   "note": ""
  },
  {
   "property": "C82",
   "status": "proved",
   "theorems": [
    "C82_accepted",
    "C82_cast",
    "C82_view",
    "C82_write",
    "C82_inside",
    "C82_hmac_exact",
    "C82_hmac_refuted"
   ],
   "note": "Holds for the repr(transparent) types; for hmac::Hash<N> the exact condition is C82_hmac_exact and C82_hmac_refuted gives an allowed layout for which the casts are undefined."
  },
  {
   "property": "C83",
   "status": "proved",
   "theorems": [
    "C83_order",
    "C83_hash",
    "C83_prefix_free",
    "C83_clone",
    "C83_default",
    "C83_copy"
   ],
   "note": ""
  },
  {
   "property": "C84",
   "status": "proved",
   "theorems": [
    "C84_text",
    "C84_hidden_key_refuted",
    "C84_pretty_refuted",
    "C84_others",
    "C84_error"
   ],
   "note": "That the key stays hidden is refuted: the text determines it (C84_hidden_key_refuted, C84_pretty_refuted)."
  },
  {
   "property": "C85",
   "status": "proved",
   "theorems": [
    "C85_no_illegal_instruction",
    "C85_detected",
    "C85_declared",
    "C85_exact",
    "C85_same"
   ],
   "note": ""
  },
  {
   "property": "C86",
   "status": "proved",
   "theorems": [
    "C86_once",
    "C86_names",
    "C86_missing",
    "C86_cargo",
    "C86_any_features_refuted",
    "C86_write"
   ],
   "note": "Exact: C86_names, C86_missing (the names missing where it does not resolve), C86_cargo. The README's claim that any combination of features compiles is refuted by C86_any_features_refuted. Resolution of names only, not type checking."
  },
  {
   "property": "C87",
   "status": "proved",
   "theorems": [
    "C87_declared",
    "C87_undeclared",
    "C87_digest",
    "C87_keyed",
    "C87_hmac",
    "C87_tagged",
    "C87_resume",
    "C87_never_zero",
    "C87_apart",
    "C87_order",
    "C87_key_order",
    "C87_tail",
    "C87_resume_refuted",
    "C87_const_refuted",
    "C87_to_u64",
    "C87_to_u64_refuted"
   ],
   "note": "That the build compiles is refuted by C87_declared; everything else is about the text with the one undeclared variable read as self. The lost equations are C87_resume_refuted, C87_const_refuted, C87_to_u64_refuted."
  },
  {
   "property": "C88",
   "status": "proved",
   "theorems": [
    "C88_implied",
    "C88_headers",
    "C88_derives",
    "C88_structs",
    "C88_coherent",
    "C88_local",
    "C88_requirements",
    "C88_engines",
    "C88_engine",
    "C88_tagged",
    "C88_hmac",
    "C88_hash",
    "C88_tagged_hash",
    "C88_hmac_hash",
    "C88_midstate",
    "C88_error",
    "C88_state",
    "C88_hmac_midstate",
    "C88_hmac_MidState",
    "C88_digest",
    "C88_state_type"
   ],
   "note": "About the declarations of traits and impls, not their bodies. Lifetimes, the associated types Output and Value and blanket impls of other crates are left out."
  },
  {
   "property": "C89",
   "status": "proved",
   "theorems": [
    "C89_fields",
    "C89_change",
    "C89_make",
    "C89_give"
   ],
   "note": "About declarations and signatures, not bodies; derived functions (clone) are those of C88. Safe code of the user is assumed: the crate has no say over transmutes."
  }
 ]
}