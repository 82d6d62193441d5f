{
 "claims": [
  {
   "property": "C01",
   "status": "proved",
   "theorems": [
    "C01_add"
   ],
   "note": "every i64 top word, both builds, all nine fields"
  },
  {
   "property": "C02",
   "status": "partial",
   "theorems": [
    "C02_mul_partial",
    "C02_mul_seven",
    "C02_mul_refuted",
    "C02_mul_251_refuted",
    "C02_mul_251_partial",
    "C02_mul_222_partial"
   ],
   "note": "full for seven fields (C02_mul_seven); in e222_117 and e251_9 the product is right if and only if it is not negative and below 4588641*2^425 or 2^504 (C02_mul_222_partial, C02_mul_251_partial), so the claim is false there (refuted)"
  },
  {
   "property": "C03",
   "status": "proved",
   "theorems": [
    "C03_square"
   ],
   "note": "every value the library produces, all nine fields"
  },
  {
   "property": "C04",
   "status": "partial",
   "theorems": [
    "C04_sub_partial",
    "C04_sub_refuted"
   ],
   "note": "false when the subtrahend has a pending carry (refuted); the theorem gives the exact condition"
  },
  {
   "property": "C05",
   "status": "partial",
   "theorems": [
    "C05_neg_refuted",
    "C05_neg_partial"
   ],
   "note": "false: negation returns a value congruent to its argument (refuted for every non-zero value); what remains is that it does not panic and maps 0 to 0"
  },
  {
   "property": "C06",
   "status": "proved",
   "theorems": [
    "C06_small_add_sub"
   ],
   "note": "every i32, every i64 top word; the i16/i8/operator forms follow by C19"
  },
  {
   "property": "C07",
   "status": "partial",
   "theorems": [
    "C07_small_mul_partial",
    "C07_small_mul_i32_partial",
    "C07_small_mul_refuted",
    "C07_small_mul_large_refuted",
    "C07_small_mul_521_refuted",
    "C07_small_mul_exact_partial",
    "C07_small_mul_pending_refuted"
   ],
   "note": "false as stated (refuted three ways). Proved instead for every value of any top word and every i32 multiplier: the product is right if and only if the value has no pending carry, the top column fits an i64 and, in e521_1, four column carries agree; when right both builds return it"
  },
  {
   "property": "C08",
   "status": "partial",
   "theorems": [
    "C08_normalize_partial",
    "C08_domain",
    "C08_normalize_refuted",
    "C08_normalize_521_refuted"
   ],
   "note": "false for some negative values (refuted); proved on the domain where it holds, which C09 shows to be exact"
  },
  {
   "property": "C09",
   "status": "proved",
   "theorems": [
    "C09_normalize_domain"
   ],
   "note": "exact characterisation; also shows that normalize never panics"
  },
  {
   "property": "C10",
   "status": "proved",
   "theorems": [
    "C10_unpack"
   ],
   "note": "all byte strings, any previous contents of the target"
  },
  {
   "property": "C11",
   "status": "proved",
   "theorems": [
    "C11_pack",
    "C11_encode",
    "C11_pack_normalized"
   ],
   "note": "all values normalize handles"
  },
  {
   "property": "C12",
   "status": "proved",
   "theorems": [
    "C12_decode_encode",
    "C12_encode_decode"
   ],
   "note": "both directions"
  },
  {
   "property": "C13",
   "status": "proved",
   "theorems": [
    "C13_encodings"
   ],
   "note": ""
  },
  {
   "property": "C14",
   "status": "proved",
   "theorems": [
    "C14_buffers"
   ],
   "note": "every length, every content"
  },
  {
   "property": "C15",
   "status": "proved",
   "theorems": [
    "C15_eq",
    "C15_self_eq"
   ],
   "note": ""
  },
  {
   "property": "C16",
   "status": "proved",
   "theorems": [
    "C16_observers"
   ],
   "note": ""
  },
  {
   "property": "C17",
   "status": "proved",
   "theorems": [
    "C17_bit",
    "C17_bit_normalized",
    "C17_bits_enough"
   ],
   "note": "every index"
  },
  {
   "property": "C18",
   "status": "proved",
   "theorems": [
    "C18_filled",
    "C18_mask",
    "C18_select",
    "C18_self_mask"
   ],
   "note": "normalized_bitand/bitor on arbitrary words, normalize_self_bitand on every value normalize handles; normalize_bitand is C41"
  },
  {
   "property": "C19",
   "status": "proved",
   "theorems": [
    "C19_field_forms",
    "C19_int_forms",
    "C19_int_left_forms",
    "C19_unary_forms"
   ],
   "note": "arbitrary arguments, both builds"
  },
  {
   "property": "C20",
   "status": "proved",
   "theorems": [
    "C20_constants",
    "C20_sizes",
    "C20_prime"
   ],
   "note": "primality by Pocklington, n+1 and Lucas-Lehmer certificates checked by the kernel"
  },
  {
   "property": "C21",
   "status": "partial",
   "theorems": [
    "C21_invert_partial",
    "C21_invert_251_refuted",
    "C21_invert_251_partial",
    "C21_invert_222_exact",
    "C21_invert_minus_one_251_refuted"
   ],
   "note": "eight fields in full for the values they multiply rightly; negative values in e222_117: wrong exactly there (C21_invert_222_exact); e251_9: refuted for a sum of two decoded values and for -1, proved for every non-negative value unless two values whose residues are within 2^228 of zero are multiplied on the way"
  },
  {
   "property": "C22",
   "status": "partial",
   "theorems": [
    "C22_div_partial",
    "C22_div_251_refuted",
    "C22_div_251_partial",
    "C22_div_222_exact"
   ],
   "note": "eight fields in full; negative operands in e222_117: exact condition for a non-negative divisor, wrong for a negative one; e251_9: refuted (1 / a for a sum a of two decoded values), proved for non-negative values unless two values whose residues are within 2^228 of zero are multiplied on the way"
  },
  {
   "property": "C23",
   "status": "partial",
   "theorems": [
    "C23_legendre_partial",
    "C23_legendre_251_partial",
    "C23_legendre_222_exact",
    "C23_legendre_251_refuted"
   ],
   "note": "eight fields in full; negative values in e222_117: wrong exactly there; e251_9: refuted for -1, proved for every non-negative value unless two values whose residues are within 2^228 of zero are multiplied on the way; missing: those arguments of e251_9 (their existence is open)"
  },
  {
   "property": "C24",
   "status": "partial",
   "theorems": [
    "C24_sqrt_partial",
    "C24_which_root",
    "C24_sqrt_any_partial",
    "C24_fourth_power_symbol",
    "C24_sqrt_251_partial",
    "C24_sqrt_222_exact",
    "C24_sqrt_222_refuted"
   ],
   "note": "eight fields in full, non-squares included, with the choice of the root for moduli that are 3 mod 4; negative values in e222_117: the root that is a square is returned exactly for non-negative values, and no root for -2 (refuted); e251_9: proved for everything produced, negative or not, unless two values whose residues are within 2^228 of zero are multiplied on the way; missing: those arguments of e251_9 (their existence is open)"
  },
  {
   "property": "C25",
   "status": "partial",
   "theorems": [
    "C25_no_panic_partial",
    "C25_small_mul_refuted",
    "C25_square_refuted"
   ],
   "note": "programs of any length that use small multiples as marked; false for large multipliers and for squaring large small-integer multiples, which overflow (refuted)"
  },
  {
   "property": "C26",
   "status": "partial",
   "theorems": [
    "C26_expressions",
    "C26_programs_partial",
    "C26_inverse",
    "C26_symbol",
    "C26_root"
   ],
   "note": "full for expressions whose results are normalised, with multipliers for which small multiplication is right (C07) and without inversion in mod_e251_9 (C21); without normalising, for programs that keep to the shapes on which each operation is right, random elements, symbols, roots and products, squares, inverses and quotients of small multiples included (it is false otherwise, see C02, C04, C05, C07)"
  },
  {
   "property": "C27",
   "status": "partial",
   "theorems": [
    "C27_add_comm",
    "C27_add_assoc",
    "C27_mul_comm_partial",
    "C27_mul_assoc_partial",
    "C27_distrib_partial",
    "C27_units_partial",
    "C27_sub_partial",
    "C27_square_partial"
   ],
   "note": "addition laws for every top word; the other laws for every decoded value in all fields, for sums and products of such in e222_117 too, and for every value within the head room of multiplication in the other seven (products are wrong on other values, see C02 and C65)"
  },
  {
   "property": "C28",
   "status": "proved",
   "theorems": [
    "C28_rand_canonical"
   ],
   "note": "gen_range(lo,hi) is modelled as some value of [lo,hi) determined by the next draw"
  },
  {
   "property": "C29",
   "status": "partial",
   "theorems": [
    "C29_rand_covers_refuted",
    "C29_rand_image_partial"
   ],
   "note": "false (refuted); the exact image is given"
  },
  {
   "property": "C30",
   "status": "proved",
   "theorems": [
    "C30_hex"
   ],
   "note": ""
  },
  {
   "property": "C31",
   "status": "proved",
   "theorems": [
    "C31_add",
    "C31_add_formula"
   ],
   "note": "over every lawful field implementation, every point pair whose Edwards sum is defined; on any coordinates it is the published formula"
  },
  {
   "property": "C32",
   "status": "proved",
   "theorems": [
    "C32_double",
    "C32_double_is_add",
    "C32_double_formula"
   ],
   "note": "over every lawful field implementation; agreement with addition for non-square d; on any coordinates it is the published formula"
  },
  {
   "property": "C33",
   "status": "partial",
   "theorems": [
    "C33_triple_refuted",
    "C33_triple_partial",
    "C33_triple_formula_partial"
   ],
   "note": "the claim is false (refuted): the code has aa - xb for aa + xb; proved that y is right and x is right exactly when x(3P) = 0; on any coordinates it is the formula as the code has it"
  },
  {
   "property": "C34",
   "status": "proved",
   "theorems": [
    "C34_complete",
    "C34_double_complete",
    "C34_unique"
   ],
   "note": "addition and doubling have no exceptional points for non-square d; sums are unique and stay on the curve"
  },
  {
   "property": "C35",
   "status": "partial",
   "theorems": [
    "C35_zero_refuted",
    "C35_zero_partial"
   ],
   "note": "the claim is false (refuted): zero() sets T = 1; proved that P + zero() stands for P exactly when x*y = 0"
  },
  {
   "property": "C36",
   "status": "partial",
   "theorems": [
    "C36_init_refuted",
    "C36_init_partial",
    "C36_init_double_partial"
   ],
   "note": "the claim is false (refuted): init sets T = 1; proved that the result is valid exactly when x*y = 1, and that doubling it is right"
  },
  {
   "property": "C37",
   "status": "partial",
   "theorems": [
    "C37_scalar_mult_refuted",
    "C37_scalar_mult_partial",
    "C37_ladder_partial",
    "C37_flat_partial"
   ],
   "note": "the claim is false (refuted): the ladder exchanges its two cases and starts at the wrong zero; proved exactly what it computes for every point and scalar (the residues of the exchanged ladder), and that on points with x*y = 0 this is the multiple for the complemented scalar"
  },
  {
   "property": "C38",
   "status": "partial",
   "theorems": [
    "C38_refuted",
    "C38_add_clean_partial",
    "C38_double_clean_partial",
    "C38_add_positive_partial",
    "C38_double_positive_partial",
    "C38_add_partial",
    "C38_double_partial",
    "C38_triple_partial",
    "C38_zero_partial",
    "C38_init_partial",
    "C38_scalar_mult_partial",
    "C38_ladder_partial",
    "C38_programs_partial"
   ],
   "note": "the claim is false for all five curves (refuted for doubling and addition); proved: addition and doubling are right on points whose subtracted products carry nothing (plus non-negative factors on E-222 and Curve1174); no point program of any length panics, both builds agree, results stay in the produced range"
  },
  {
   "property": "C39",
   "status": "proved",
   "theorems": [
    "C39_d",
    "C39_complete"
   ],
   "note": "d_val() is the published d, reduced and a non-square; the five curves are complete (base points: C45)"
  },
  {
   "property": "C40",
   "status": "proved",
   "theorems": [
    "C40_calls",
    "C40_point_calls",
    "C40_every_call",
    "C40_every_point_call",
    "C40_program",
    "C40_program_completed",
    "C40_point_program",
    "C40_point_program_completed",
    "C40_erasure",
    "C40_field",
    "C40_curve",
    "C40_field_completed",
    "C40_curve_completed",
    "C40_field_panic",
    "C40_curve_panic",
    "C40_scalar_mult",
    "C40_debug_text_refuted"
   ],
   "note": "for all functions but Debug::fmt (refuted for it); the observer sees the model's operations, not machine instructions; gen_range and core::fmt internals are not modelled"
  },
  {
   "property": "C41",
   "status": "partial",
   "theorems": [
    "C41_normalize_bitand_mask_refuted"
   ],
   "note": "false in every field (refuted)"
  },
  {
   "property": "C42",
   "status": "proved",
   "theorems": [
    "C42_bitwise",
    "C42_self_bitwise",
    "C42_words"
   ],
   "note": ""
  },
  {
   "property": "C43",
   "status": "proved",
   "theorems": [
    "C43_debug",
    "C43_debug_injective"
   ],
   "note": "every array of i64 words; core::fmt's integer formatting is modelled by Lang.hex_fmt"
  },
  {
   "property": "C44",
   "status": "proved",
   "theorems": [
    "C44_commutative",
    "C44_associative",
    "C44_neutral",
    "C44_inverse",
    "C44_chain_runs",
    "C44_chain",
    "C44_chains_agree",
    "C44_chain_exists",
    "C44_group"
   ],
   "note": "over any correct field implementation (the shipped fields are not: C38)"
  },
  {
   "property": "C45",
   "status": "proved",
   "theorems": [
    "C45_edwards",
    "C45_montgomery",
    "C45_e222_comment_refuted"
   ],
   "note": "the published values are compared as literals in GroupSpec.v; E222_ORDER's comment in the source is M-221's order (refuted), the constant is right; Montgomery coefficients A are not in the code"
  },
  {
   "property": "C46",
   "status": "proved",
   "theorems": [
    "C46_edwards_prime",
    "C46_montgomery_prime",
    "C46_order",
    "C46_multiples",
    "C46_library",
    "C46_montgomery_order",
    "C46_montgomery_multiples",
    "C46_montgomery_every",
    "C46_montgomery_group",
    "C46_montgomery_laws",
    "C46_montgomery_added"
   ],
   "note": "uses the standard library's axioms for 63-bit machine integers (Coq.Numbers.Cyclic.Int63); the library part is over any correct field implementation; the library has no arithmetic for the Montgomery curves, so there the claim is about chord-and-tangent addition itself"
  },
  {
   "property": "C47",
   "status": "proved",
   "theorems": [
    "C47_call",
    "C47_program",
    "C47_point_program"
   ],
   "note": "the two profiles differ in overflow checks only (debug_assertions are not used by the library); compiler optimisations are outside the model"
  },
  {
   "property": "C48",
   "status": "proved",
   "theorems": [
    "C48_field",
    "C48_curve",
    "C48_all_fields",
    "C48_all_curves",
    "C48_program",
    "C48_point_program"
   ],
   "note": "short buffers and bit numbers out of range do panic (C14, C17); what the generator itself does is not modelled"
  },
  {
   "property": "C49",
   "status": "proved",
   "theorems": [
    "C49_product"
   ],
   "note": "exact condition, all nine fields"
  },
  {
   "property": "C50",
   "status": "proved",
   "theorems": [
    "C50_difference"
   ],
   "note": "exact residue of the result, any top word"
  },
  {
   "property": "C51",
   "status": "proved",
   "theorems": [
    "C51_negation"
   ],
   "note": "exact residue of the result, any top word"
  },
  {
   "property": "C52",
   "status": "proved",
   "theorems": [
    "C52_small_multiple",
    "C52_small_word",
    "C52_powers_of_two"
   ],
   "note": "exact condition, every top word and every i32; exact result outside e521_1"
  },
  {
   "property": "C53",
   "status": "proved",
   "theorems": [
    "C53_normalize_bitand_mask"
   ],
   "note": "exact result for both masks"
  },
  {
   "property": "C54",
   "status": "proved",
   "theorems": [
    "C54_random_image"
   ],
   "note": "exact image over all streams"
  },
  {
   "property": "C55",
   "status": "proved",
   "theorems": [
    "C55_inverse",
    "C55_legendre",
    "C55_sqrt"
   ],
   "note": "exact condition in eight fields; e251_9 is in C21-C24"
  },
  {
   "property": "C56",
   "status": "proved",
   "theorems": [
    "C56_formulas"
   ],
   "note": "over every lawful field implementation"
  },
  {
   "property": "C57",
   "status": "proved",
   "theorems": [
    "C57_add",
    "C57_double",
    "C57_products",
    "C57_canonical"
   ],
   "note": "exact condition; on E-222 and Curve1174 for points whose products come out right (exactly when is C49)"
  },
  {
   "property": "C58",
   "status": "proved",
   "theorems": [
    "C58_checked",
    "C58_lawful",
    "C58_sum",
    "C58_double",
    "C58_triple"
   ],
   "note": "for the runs with no wrong field result; when results are wrong is C49-C52"
  },
  {
   "property": "C59",
   "status": "proved",
   "theorems": [
    "C59_ladder",
    "C59_scalar_mult",
    "C59_determined"
   ],
   "note": "in terms of the library's own sums and doubles; when these are right is C57"
  },
  {
   "property": "C60",
   "status": "proved",
   "theorems": [
    "C60_lawful",
    "C60_sum",
    "C60_double",
    "C60_multiples",
    "C60_scalar_mult"
   ],
   "note": "shows that the missing normalisation is the only defect of addition and doubling on the shipped curves; scalar multiplication stays wrong for the reasons in C37"
  },
  {
   "property": "C61",
   "status": "proved",
   "theorems": [
    "C61_normalize",
    "C61_produced",
    "C61_pack_normalized",
    "C61_pack",
    "C61_encodings",
    "C61_encodings_refuted",
    "C61_equality",
    "C61_self_equality",
    "C61_bit",
    "C61_bit_normalized",
    "C61_hex",
    "C61_bitwise"
   ],
   "note": "the exact behaviour, including where it is not what a user expects: C61_encodings_refuted shows that an encoding after a small multiplication can be that of another residue"
  },
  {
   "property": "C62",
   "status": "proved",
   "theorems": [
    "C62_draws",
    "C62_distinct",
    "C62_count"
   ],
   "note": "gen_range is modelled as some value of the range determined by the next draw; the probability statement itself is outside the model"
  },
  {
   "property": "C63",
   "status": "proved",
   "theorems": [
    "C63_twice",
    "C63_observers"
   ],
   "note": "a way round C08 and C15 for a user of the library as it is"
  },
  {
   "property": "C64",
   "status": "proved",
   "theorems": [
    "C64_invert_twice",
    "C64_invert_mul",
    "C64_div_invert",
    "C64_div_div",
    "C64_div_sum",
    "C64_fractions",
    "C64_legendre_mul",
    "C64_legendre_square",
    "C64_legendre_invert",
    "C64_sqrt_square"
   ],
   "note": "the eight fields in which powers are right; e251_9 is excluded by the quantifier"
  },
  {
   "property": "C65",
   "status": "proved",
   "theorems": [
    "C65_product",
    "C65_square",
    "C65_inverse",
    "C65_multiples",
    "C65_limit"
   ],
   "note": "the limit is stated with its witnesses; in e222_117 and e251_9 the products are right under the conditions of C49"
  },
  {
   "property": "C66",
   "status": "proved",
   "theorems": [
    "C66_any_point",
    "C66_negative_refuted",
    "C66_canonical",
    "C66_normal",
    "C66_exactly"
   ],
   "note": "the condition at the stops is in the statement; C66_negative_refuted shows that it is needed"
  },
  {
   "property": "C67",
   "status": "proved",
   "theorems": [
    "C67_transparent"
   ],
   "note": "for programs in the discipline of C26; outside it C61 and C63 say what observers do to any value"
  },
  {
   "property": "C68",
   "status": "proved",
   "theorems": [
    "C68_indistinguishable",
    "C68_two_encodings_refuted"
   ],
   "note": "the discipline is in the statement; C68_two_encodings_refuted shows that some condition is needed"
  }
 ]
}