{
 "claims": [
  {
   "property": "C01",
   "status": "proved",
   "theorems": [
    "C01_encrypt_conforms"
   ],
   "note": ""
  },
  {
   "property": "C02",
   "status": "proved",
   "theorems": [
    "C02_decrypt_conforms"
   ],
   "note": ""
  },
  {
   "property": "C03",
   "status": "proved",
   "theorems": [
    "C03_roundtrip"
   ],
   "note": ""
  },
  {
   "property": "C04",
   "status": "proved",
   "theorems": [
    "C04_wrong_tag_rejected"
   ],
   "note": ""
  },
  {
   "property": "C05",
   "status": "proved",
   "theorems": [
    "C05_accepted_is_encryption",
    "C05_encryption_injective"
   ],
   "note": ""
  },
  {
   "property": "C06",
   "status": "proved",
   "theorems": [
    "C06_short_ciphertext",
    "C06_short_ciphertext_esp32"
   ],
   "note": ""
  },
  {
   "property": "C07",
   "status": "proved",
   "theorems": [
    "C07_return_codes"
   ],
   "note": ""
  },
  {
   "property": "C08",
   "status": "proved",
   "theorems": [
    "C08_output_lengths"
   ],
   "note": ""
  },
  {
   "property": "C09",
   "status": "proved",
   "theorems": [
    "C09_memory_safety"
   ],
   "note": "Also for the assembly and the masked code: see C38, C41-C44, C46, C47, whose theorems include that the call finishes."
  },
  {
   "property": "C10",
   "status": "proved",
   "theorems": [
    "C10_frame"
   ],
   "note": ""
  },
  {
   "property": "C11",
   "status": "proved",
   "theorems": [
    "C11_inplace_encrypt",
    "C11_inplace_decrypt"
   ],
   "note": "esp32 is excluded (its decryption is wrong in place, C41)."
  },
  {
   "property": "C12",
   "status": "proved",
   "theorems": [
    "C12_null_buffers",
    "C12_exceptions",
    "C12_exceptions_aead"
   ],
   "note": "C12_exceptions (PropertiesLow.v) refutes the property for crypto_hash of the word-based directories; C12_exceptions_aead for the lowsize and esp32 AEAD (aead_demands in Impls.v lists them)."
  },
  {
   "property": "C13",
   "status": "proved",
   "theorems": [
    "C13_hash256"
   ],
   "note": ""
  },
  {
   "property": "C14",
   "status": "proved",
   "theorems": [
    "C14_xof128"
   ],
   "note": ""
  },
  {
   "property": "C15",
   "status": "proved",
   "theorems": [
    "C15_cxof128",
    "C15_hash_is_empty_customization"
   ],
   "note": "For customization strings whose bit length fits 64 bits; the code has no 256-byte limit (DESIGN 6.8)."
  },
  {
   "property": "C16",
   "status": "proved",
   "theorems": [
    "C16_prf_prefix",
    "C16_cxof_prefix",
    "C16_xof_prefix"
   ],
   "note": ""
  },
  {
   "property": "C17",
   "status": "proved",
   "theorems": [
    "C17_mac"
   ],
   "note": ""
  },
  {
   "property": "C18",
   "status": "proved",
   "theorems": [
    "C18_prf",
    "C18_auth_is_64_bytes"
   ],
   "note": ""
  },
  {
   "property": "C19",
   "status": "proved",
   "theorems": [
    "C19_prf_short"
   ],
   "note": ""
  },
  {
   "property": "C20",
   "status": "proved",
   "theorems": [
    "C20_limits"
   ],
   "note": ""
  },
  {
   "property": "C21",
   "status": "proved",
   "theorems": [
    "C21_verify_exact"
   ],
   "note": ""
  },
  {
   "property": "C22",
   "status": "proved",
   "theorems": [
    "C22_encrypt_agree",
    "C22_decrypt_agree",
    "C22_hash_agree",
    "C22_prf_agree"
   ],
   "note": "For the implementations listed in Impls.v; the others have their own properties (C38-C40, C44, C46, C47)."
  },
  {
   "property": "C23",
   "status": "proved",
   "theorems": [
    "C23_permutations",
    "C23_reference_permutations"
   ],
   "note": "The permutations in assembly: C42, C44, C46-C48."
  },
  {
   "property": "C24",
   "status": "proved",
   "theorems": [
    "C24_bijection"
   ],
   "note": ""
  },
  {
   "property": "C25",
   "status": "proved",
   "theorems": [
    "C25_precomputed_initial_states",
    "C25_initial_words"
   ],
   "note": ""
  },
  {
   "property": "C26",
   "status": "proved",
   "theorems": [
    "C26_conversions"
   ],
   "note": ""
  },
  {
   "property": "C27",
   "status": "proved",
   "theorems": [
    "C27_interleaved_wrong_on_big_endian",
    "C27_opt8_wrong_on_big_endian",
    "C27_encrypt_both_hosts",
    "C27_decrypt_both_hosts",
    "C27_hash_both_hosts",
    "C27_prf_both_hosts"
   ],
   "note": "The two *_wrong_on_big_endian theorems are refutations for the interleaved and opt8 directories; the *_both_hosts theorems are the property for the others."
  },
  {
   "property": "C28",
   "status": "proved",
   "theorems": [
    "C28_constant_time"
   ],
   "note": "Portable, esp32, vector implementations; the masked code is C49, the assembly files are C42, C45 and C50."
  },
  {
   "property": "C29",
   "status": "proved",
   "theorems": [
    "C29_byte_comparison",
    "C29_word_comparison"
   ],
   "note": ""
  },
  {
   "property": "C30",
   "status": "proved",
   "theorems": [
    "C30_padding_injective",
    "C30_ad_message_separated",
    "C30_steps_determine_tag"
   ],
   "note": ""
  },
  {
   "property": "C31",
   "status": "proved",
   "theorems": [
    "C31_domain_separation"
   ],
   "note": ""
  },
  {
   "property": "C32",
   "status": "proved",
   "theorems": [
    "C32_pure"
   ],
   "note": ""
  },
  {
   "property": "C33",
   "status": "proved",
   "theorems": [
    "C33_termination"
   ],
   "note": "Termination of the assembly files is part of C42-C44, C46, C47, of the masked code of C38; neon above 2^32 bytes: C43."
  },
  {
   "property": "C34",
   "status": "proved",
   "theorems": [
    "C34_no_release_refuted",
    "C34_always_released"
   ],
   "note": "States what the code does: the user's expectation (no release of unverified plaintext) is refuted by C34_no_release_refuted."
  },
  {
   "property": "C35",
   "status": "proved",
   "theorems": [
    "C35_stream_prefix"
   ],
   "note": ""
  },
  {
   "property": "C36",
   "status": "proved",
   "theorems": [
    "C36_loop_is_unrolled_64",
    "C36_loop_is_unrolled_bi32",
    "C36_same_permutation"
   ],
   "note": ""
  },
  {
   "property": "C37",
   "status": "proved",
   "theorems": [
    "C37_encrypt_same_effect",
    "C37_decrypt_same_effect",
    "C37_hash_same_effect",
    "C37_strict_short_ad",
    "C37_strict_long_ad_undefined",
    "C37_strict_xof_undefined"
   ],
   "note": "Equality holds when NULL + n is the address n; the C37_strict_* theorems say what holds under ISO C."
  },
  {
   "property": "C38",
   "status": "proved",
   "theorems": [
    "C38_masked_encrypt",
    "C38_masked_decrypt",
    "C38_masked_roundtrip",
    "C38_encrypt_same_effect",
    "C38_decrypt_same_effect",
    "C38_masked_short"
   ],
   "note": ""
  },
  {
   "property": "C39",
   "status": "proved",
   "theorems": [
    "C39_verdict",
    "C39_rejection_is_sound",
    "C39_forgery",
    "C39_single_bit_rejected"
   ],
   "note": "Of the masked verification; C39_forgery refutes the expectation that a wrong tag is always rejected."
  },
  {
   "property": "C40",
   "status": "proved",
   "theorems": [
    "C40_avr_hash_computes",
    "C40_avr_tag_computes",
    "C40_avr_hash_collides",
    "C40_avr_forgery",
    "C40_avr_not_standard"
   ],
   "note": "A finding: avr hash, XOF, MAC and PRF are refuted to be the standard functions."
  },
  {
   "property": "C41",
   "status": "proved",
   "theorems": [
    "C41_encrypt_same_effect",
    "C41_decrypt_same_effect",
    "C41_hash_same_effect",
    "C41_encrypt_any_width",
    "C41_decrypt_any_width",
    "C41_hash_any_width",
    "C41_inplace_whole_blocks",
    "C41_inplace_partial_block",
    "C41_inplace_refuted",
    "C41_long_ad_ignored",
    "C41_long_text_not_encrypted",
    "C41_long_hash_collision",
    "C41_strict_long_ad_undefined"
   ],
   "note": "Includes refutations: in-place decryption of partial blocks, lengths truncated to unsigned long."
  },
  {
   "property": "C42",
   "status": "proved",
   "theorems": [
    "C42_asm_statements_compute_ascon_p",
    "C42_asm_statements_constant_time",
    "C42_function_follows_calling_convention",
    "C42_function_constant_time",
    "C42_avr_function_computes_ascon_p",
    "C42_avr_function_constant_time"
   ],
   "note": ""
  },
  {
   "property": "C43",
   "status": "proved",
   "theorems": [
    "C43_neon_registers_irrelevant",
    "C43_avx512_lanes_irrelevant",
    "C43_neon_encrypt_faults",
    "C43_neon_decrypt_faults",
    "C43_neon_long_never_returns",
    "C43_neon_loops_never_end"
   ],
   "note": "Includes refutations: neon faults on misaligned buffers and never ends from 2^32 bytes on."
  },
  {
   "property": "C44",
   "status": "proved",
   "theorems": [
    "C44_encrypt",
    "C44_rv32i_standard",
    "C44_others_not_standard",
    "C44_decrypt",
    "C44_short",
    "C44_roundtrip",
    "C44_forgery",
    "C44_calling_convention_encrypt",
    "C44_calling_convention_decrypt",
    "C44_encrypt_case",
    "C44_decrypt_case"
   ],
   "note": "Includes refutations: universal forgery; three directories are Ascon-128a v1.2, not the standard."
  },
  {
   "property": "C45",
   "status": "proved",
   "theorems": [
    "C45_encrypt_constant_time",
    "C45_decrypt_constant_time",
    "C45_case"
   ],
   "note": ""
  },
  {
   "property": "C46",
   "status": "proved",
   "theorems": [
    "C46_hash",
    "C46_xof",
    "C46_not_standard",
    "C46_case"
   ],
   "note": "Includes the refutation that these directories compute the standard functions."
  },
  {
   "property": "C47",
   "status": "proved",
   "theorems": [
    "C47_encrypt",
    "C47_not_standard",
    "C47_decrypt",
    "C47_short",
    "C47_roundtrip",
    "C47_forgery",
    "C47_encrypt_case",
    "C47_decrypt_case"
   ],
   "note": "Includes refutations: universal forgery; Ascon-128a v1.2, not the standard."
  },
  {
   "property": "C48",
   "status": "proved",
   "theorems": [
    "C48_program",
    "C48_probe",
    "C48_uniform",
    "C48_sequence",
    "C48_one_share_leaks",
    "C48_two_values_leak",
    "C48_case"
   ],
   "note": "First order, single values: no transitions, glitches or sets of values (DESIGN 5)."
  },
  {
   "property": "C49",
   "status": "proved",
   "theorems": [
    "C49_encrypt_constant_time",
    "C49_decrypt_constant_time",
    "C49_encrypt_trace",
    "C49_decrypt_trace",
    "C49_case"
   ],
   "note": ""
  },
  {
   "property": "C50",
   "status": "proved",
   "theorems": [
    "C50_encrypt_constant_time",
    "C50_decrypt_constant_time",
    "C50_hash_constant_time",
    "C50_xof_constant_time",
    "C50_case"
   ],
   "note": ""
  },
  {
   "property": "C51",
   "status": "proved",
   "theorems": [
    "C51_shares_make_up_the_text",
    "C51_all_but_one_share_hide_the_text",
    "C51_uses_only_its_words",
    "C51_inputs_hidden_jointly",
    "C51_encryption_hides_its_inputs",
    "C51_decryption_hides_its_inputs",
    "C51_all_shares_determine_the_text",
    "C51_case",
    "C51_case_jobs",
    "C51_case_encryption",
    "C51_case_decryption"
   ],
   "note": "About the masking of the inputs; what the masked functions then compute with the shares is C48 (permutation), C38 (result) and C49 (trace)."
  }
 ]
}