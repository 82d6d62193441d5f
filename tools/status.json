{
 "C01": [
  "proved",
  "every i64 top word, both builds, all nine fields"
 ],
 "C02": [
  "partial",
  "full for seven fields (C02_mul_seven); in e222_117 and e251_9 the product is right if and only if it is not negative and below 4588641*2^425 or 2^504 (C02_mul_222_partial, C02_mul_251_partial), so the claim is false there (refuted)"
 ],
 "C03": [
  "proved",
  "every value the library produces, all nine fields"
 ],
 "C04": [
  "partial",
  "false when the subtrahend has a pending carry (refuted); the theorem gives the exact condition"
 ],
 "C05": [
  "partial",
  "false: negation returns a value congruent to its argument (refuted for every non-zero value); what remains is that it does not panic and maps 0 to 0"
 ],
 "C06": [
  "proved",
  "every i32, every i64 top word; the i16/i8/operator forms follow by C19"
 ],
 "C07": [
  "partial",
  "false as stated (refuted three ways). Proved instead for every value of any top word and every i32 multiplier: the product is right if and only if the value has no pending carry, the top column fits an i64 and, in e521_1, four column carries agree; when right both builds return it"
 ],
 "C08": [
  "partial",
  "false for some negative values (refuted); proved on the domain where it holds, which C09 shows to be exact"
 ],
 "C09": [
  "proved",
  "exact characterisation; also shows that normalize never panics"
 ],
 "C10": [
  "proved",
  "all byte strings, any previous contents of the target"
 ],
 "C11": [
  "proved",
  "all values normalize handles"
 ],
 "C12": [
  "proved",
  "both directions"
 ],
 "C13": [
  "proved",
  ""
 ],
 "C14": [
  "proved",
  "every length, every content"
 ],
 "C15": [
  "proved",
  ""
 ],
 "C16": [
  "proved",
  ""
 ],
 "C17": [
  "proved",
  "every index"
 ],
 "C18": [
  "proved",
  "normalized_bitand/bitor on arbitrary words, normalize_self_bitand on every value normalize handles; normalize_bitand is C41"
 ],
 "C19": [
  "proved",
  "arbitrary arguments, both builds"
 ],
 "C28": [
  "proved",
  "gen_range(lo,hi) is modelled as some value of [lo,hi) determined by the next draw"
 ],
 "C29": [
  "partial",
  "false (refuted); the exact image is given"
 ],
 "C30": [
  "proved",
  ""
 ],
 "C41": [
  "partial",
  "false in every field (refuted)"
 ],
 "C42": [
  "proved",
  ""
 ],
 "C20": [
  "proved",
  "primality by Pocklington, n+1 and Lucas-Lehmer certificates checked by the kernel"
 ],
 "C21": [
  "partial",
  "eight fields in full for the values they multiply rightly; negative values in e222_117: wrong exactly there (C21_invert_222_exact); e251_9: refuted for a sum of two decoded values and for -1, proved for every non-negative value unless two values whose residues are within 2^228 of zero are multiplied on the way"
 ],
 "C22": [
  "partial",
  "eight fields in full; negative operands in e222_117: exact condition for a non-negative divisor, wrong for a negative one; e251_9: refuted (1 / a for a sum a of two decoded values), proved for non-negative values unless two values whose residues are within 2^228 of zero are multiplied on the way"
 ],
 "C23": [
  "partial",
  "eight fields in full; negative values in e222_117: wrong exactly there; e251_9: refuted for -1, proved for every non-negative value unless two values whose residues are within 2^228 of zero are multiplied on the way; missing: those arguments of e251_9 (their existence is open)"
 ],
 "C24": [
  "partial",
  "eight fields in full, non-squares included, with the choice of the root for moduli that are 3 mod 4; negative values in e222_117: the root that is a square is returned exactly for non-negative values, and no root for -2 (refuted); e251_9: proved for everything produced, negative or not, unless two values whose residues are within 2^228 of zero are multiplied on the way; missing: those arguments of e251_9 (their existence is open)"
 ],
 "C25": [
  "partial",
  "programs of any length that use small multiples as marked; false for large multipliers and for squaring large small-integer multiples, which overflow (refuted)"
 ],
 "C26": [
  "partial",
  "full for expressions whose results are normalised, with multipliers for which small multiplication is right (C07) and without inversion in mod_e251_9 (C21); without normalising, for programs that keep to the shapes on which each operation is right, random elements, symbols, roots and products, squares, inverses and quotients of small multiples included (it is false otherwise, see C02, C04, C05, C07)"
 ],
 "C27": [
  "partial",
  "addition laws for every top word; the other laws for every decoded value in all fields, for sums and products of such in e222_117 too, and for every value within the head room of multiplication in the other seven (products are wrong on other values, see C02 and C65)"
 ],
 "C31": [
  "proved",
  "over every lawful field implementation, every point pair whose Edwards sum is defined; on any coordinates it is the published formula"
 ],
 "C32": [
  "proved",
  "over every lawful field implementation; agreement with addition for non-square d; on any coordinates it is the published formula"
 ],
 "C33": [
  "partial",
  "the claim is false (refuted): the code has aa - xb for aa + xb; proved that y is right and x is right exactly when x(3P) = 0; on any coordinates it is the formula as the code has it"
 ],
 "C34": [
  "proved",
  "addition and doubling have no exceptional points for non-square d; sums are unique and stay on the curve"
 ],
 "C35": [
  "partial",
  "the claim is false (refuted): zero() sets T = 1; proved that P + zero() stands for P exactly when x*y = 0"
 ],
 "C36": [
  "partial",
  "the claim is false (refuted): init sets T = 1; proved that the result is valid exactly when x*y = 1, and that doubling it is right"
 ],
 "C37": [
  "partial",
  "the claim is false (refuted): the ladder exchanges its two cases and starts at the wrong zero; proved exactly what it computes for every point and scalar (the residues of the exchanged ladder), and that on points with x*y = 0 this is the multiple for the complemented scalar"
 ],
 "C38": [
  "partial",
  "the claim is false for all five curves (refuted for doubling and addition); proved: addition and doubling are right on points whose subtracted products carry nothing (plus non-negative factors on E-222 and Curve1174); no point program of any length panics, both builds agree, results stay in the produced range"
 ],
 "C39": [
  "proved",
  "d_val() is the published d, reduced and a non-square; the five curves are complete (base points: C45)"
 ],
 "C43": [
  "proved",
  "every array of i64 words; core::fmt's integer formatting is modelled by Lang.hex_fmt"
 ],
 "C44": [
  "proved",
  "over any correct field implementation (the shipped fields are not: C38)"
 ],
 "C45": [
  "proved",
  "the published values are compared as literals in GroupSpec.v; E222_ORDER's comment in the source is M-221's order (refuted), the constant is right; Montgomery coefficients A are not in the code"
 ],
 "C40": [
  "proved",
  "for all functions but Debug::fmt (refuted for it); the observer sees the model's operations, not machine instructions; gen_range and core::fmt internals are not modelled"
 ],
 "C46": [
  "proved",
  "uses the standard library's axioms for 63-bit machine integers (Coq.Numbers.Cyclic.Int63); the library part is over any correct field implementation; the library has no arithmetic for the Montgomery curves, so there the claim is about chord-and-tangent addition itself"
 ],
 "C47": [
  "proved",
  "the two profiles differ in overflow checks only (debug_assertions are not used by the library); compiler optimisations are outside the model"
 ],
 "C48": [
  "proved",
  "short buffers and bit numbers out of range do panic (C14, C17); what the generator itself does is not modelled"
 ],
 "C49": [
  "proved",
  "exact condition, all nine fields"
 ],
 "C50": [
  "proved",
  "exact residue of the result, any top word"
 ],
 "C51": [
  "proved",
  "exact residue of the result, any top word"
 ],
 "C52": [
  "proved",
  "exact condition, every top word and every i32; exact result outside e521_1"
 ],
 "C53": [
  "proved",
  "exact result for both masks"
 ],
 "C54": [
  "proved",
  "exact image over all streams"
 ],
 "C55": [
  "proved",
  "exact condition in eight fields; e251_9 is in C21-C24"
 ],
 "C56": [
  "proved",
  "over every lawful field implementation"
 ],
 "C57": [
  "proved",
  "exact condition; on E-222 and Curve1174 for points whose products come out right (exactly when is C49)"
 ],
 "C58": [
  "proved",
  "for the runs with no wrong field result; when results are wrong is C49-C52"
 ],
 "C59": [
  "proved",
  "in terms of the library's own sums and doubles; when these are right is C57"
 ],
 "C60": [
  "proved",
  "shows that the missing normalisation is the only defect of addition and doubling on the shipped curves; scalar multiplication stays wrong for the reasons in C37"
 ],
 "C61": [
  "proved",
  "the exact behaviour, including where it is not what a user expects: C61_encodings_refuted shows that an encoding after a small multiplication can be that of another residue"
 ],
 "C62": [
  "proved",
  "gen_range is modelled as some value of the range determined by the next draw; the probability statement itself is outside the model"
 ],
 "C63": [
  "proved",
  "a way round C08 and C15 for a user of the library as it is"
 ],
 "C64": [
  "proved",
  "the eight fields in which powers are right; e251_9 is excluded by the quantifier"
 ],
 "C65": [
  "proved",
  "the limit is stated with its witnesses; in e222_117 and e251_9 the products are right under the conditions of C49"
 ],
 "C66": [
  "proved",
  "the condition at the stops is in the statement; C66_negative_refuted shows that it is needed"
 ],
 "C67": [
  "proved",
  "for programs in the discipline of C26; outside it C61 and C63 say what observers do to any value"
 ],
 "C68": [
  "proved",
  "the discipline is in the statement; C68_two_encodings_refuted shows that some condition is needed"
 ]
}
