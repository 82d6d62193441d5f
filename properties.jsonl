{"id": "C01", "title": "Addition is addition mod p", "statement": "For each of the nine fields, a += &b (and a + b) leaves in a a value congruent to a + b modulo p, leaves b untouched, and does not overflow or panic.", "quantifier": "every pair of field values whose words are in the shape the library itself produces (low words in [0,2^w), top word carrying a small signed excess), both overflow modes", "why_tests_cant": "The inputs are tuples of 64-bit words denoting numbers of 221 to 521 bits (times the redundant top-word bits), so no finite set of vectors covers the carry chains.", "anchors": ["src/field/mod_e221_3.rs::AddAssign<&Self>::add_assign", "src/field/mod_e222_117.rs::AddAssign<&Self>::add_assign", "src/field/mod_e251_9.rs::AddAssign<&Self>::add_assign", "src/field/mod_e255_19.rs::AddAssign<&Self>::add_assign", "src/field/mod_e382_105.rs::AddAssign<&Self>::add_assign", "src/field/mod_e383_187.rs::AddAssign<&Self>::add_assign", "src/field/mod_e414_17.rs::AddAssign<&Self>::add_assign", "src/field/mod_e511_187.rs::AddAssign<&Self>::add_assign", "src/field/mod_e521_1.rs::AddAssign<&Self>::add_assign"]}
{"id": "C02", "title": "Multiplication is multiplication mod p", "statement": "a *= &b (and a * b) leaves a value congruent to a*b modulo p without overflow or panic, for every operand the library's other operations can produce, including values with a pending carry and values that represent negative numbers.", "quantifier": "every pair of field values in the library's loose shape, all nine fields, both overflow modes", "why_tests_cant": "The inputs are tuples of 64-bit words denoting numbers of 221 to 521 bits (times the redundant top-word bits), so no finite set of vectors covers the carry chains.", "anchors": ["src/field/mod_e221_3.rs::MulAssign<&Self>::mul_assign", "src/field/mod_e222_117.rs::MulAssign<&Self>::mul_assign", "src/field/mod_e251_9.rs::MulAssign<&Self>::mul_assign", "src/field/mod_e255_19.rs::MulAssign<&Self>::mul_assign", "src/field/mod_e382_105.rs::MulAssign<&Self>::mul_assign", "src/field/mod_e383_187.rs::MulAssign<&Self>::mul_assign", "src/field/mod_e414_17.rs::MulAssign<&Self>::mul_assign", "src/field/mod_e511_187.rs::MulAssign<&Self>::mul_assign", "src/field/mod_e521_1.rs::MulAssign<&Self>::mul_assign"]}
{"id": "C03", "title": "Squaring agrees with multiplication", "statement": "square()/squared() leave a value congruent to a*a modulo p without overflow or panic.", "quantifier": "every field value in the loose shape, all nine fields, both overflow modes", "why_tests_cant": "The inputs are tuples of 64-bit words denoting numbers of 221 to 521 bits (times the redundant top-word bits), so no finite set of vectors covers the carry chains.", "anchors": ["src/field/mod_e221_3.rs::square/squared", "src/field/mod_e222_117.rs::square/squared", "src/field/mod_e251_9.rs::square/squared", "src/field/mod_e255_19.rs::square/squared", "src/field/mod_e382_105.rs::square/squared", "src/field/mod_e383_187.rs::square/squared", "src/field/mod_e414_17.rs::square/squared", "src/field/mod_e511_187.rs::square/squared", "src/field/mod_e521_1.rs::square/squared"]}
{"id": "C04", "title": "Subtraction is subtraction mod p", "statement": "a -= &b (and a - b) leaves a value congruent to a - b modulo p, for every pair of values the library can produce.", "quantifier": "every pair of field values in the loose shape, all nine fields", "why_tests_cant": "The inputs are tuples of 64-bit words denoting numbers of 221 to 521 bits (times the redundant top-word bits), so no finite set of vectors covers the carry chains. The existing tests only subtract freshly unpacked values, which never carry.", "anchors": ["src/field/mod_e221_3.rs::SubAssign<&Self>::sub_assign", "src/field/mod_e222_117.rs::SubAssign<&Self>::sub_assign", "src/field/mod_e251_9.rs::SubAssign<&Self>::sub_assign", "src/field/mod_e255_19.rs::SubAssign<&Self>::sub_assign", "src/field/mod_e382_105.rs::SubAssign<&Self>::sub_assign", "src/field/mod_e383_187.rs::SubAssign<&Self>::sub_assign", "src/field/mod_e414_17.rs::SubAssign<&Self>::sub_assign", "src/field/mod_e511_187.rs::SubAssign<&Self>::sub_assign", "src/field/mod_e521_1.rs::SubAssign<&Self>::sub_assign"]}
{"id": "C05", "title": "Negation is negation mod p", "statement": "-a denotes p - a, i.e. (-a) + a is congruent to 0, for every a.", "quantifier": "every field value, all nine fields", "why_tests_cant": "Must hold for every residue; a unit test sees finitely many residues.", "anchors": ["src/field/mod_e221_3.rs::Neg::neg", "src/field/mod_e222_117.rs::Neg::neg", "src/field/mod_e251_9.rs::Neg::neg", "src/field/mod_e255_19.rs::Neg::neg", "src/field/mod_e382_105.rs::Neg::neg", "src/field/mod_e383_187.rs::Neg::neg", "src/field/mod_e414_17.rs::Neg::neg", "src/field/mod_e511_187.rs::Neg::neg", "src/field/mod_e521_1.rs::Neg::neg"]}
{"id": "C06", "title": "Small-integer addition and subtraction", "statement": "small_add(b), small_sub(b) and the i32/i16/i8 operator forms denote a + b and a - b modulo p for every signed b of the declared type, without overflow or panic.", "quantifier": "every field value in the loose shape and every i32 (i16, i8) operand", "why_tests_cant": "The inputs are tuples of 64-bit words denoting numbers of 221 to 521 bits (times the redundant top-word bits), so no finite set of vectors covers the carry chains. times 2^32 small operands.", "anchors": ["src/field/mod_e221_3.rs::small_add_assign/small_sub_assign", "src/field/mod_e222_117.rs::small_add_assign/small_sub_assign", "src/field/mod_e251_9.rs::small_add_assign/small_sub_assign", "src/field/mod_e255_19.rs::small_add_assign/small_sub_assign", "src/field/mod_e382_105.rs::small_add_assign/small_sub_assign", "src/field/mod_e383_187.rs::small_add_assign/small_sub_assign", "src/field/mod_e414_17.rs::small_add_assign/small_sub_assign", "src/field/mod_e511_187.rs::small_add_assign/small_sub_assign", "src/field/mod_e521_1.rs::small_add_assign/small_sub_assign"]}
{"id": "C07", "title": "Small-integer multiplication", "statement": "small_mul(b) and the i32/i16/i8 operator forms denote a*b modulo p for every signed b of the declared type, without overflow or panic.", "quantifier": "every field value in the loose shape and every i32 operand", "why_tests_cant": "The inputs are tuples of 64-bit words denoting numbers of 221 to 521 bits (times the redundant top-word bits), so no finite set of vectors covers the carry chains. times 2^32 small operands.", "anchors": ["src/field/mod_e221_3.rs::small_mul_assign", "src/field/mod_e222_117.rs::small_mul_assign", "src/field/mod_e251_9.rs::small_mul_assign", "src/field/mod_e255_19.rs::small_mul_assign", "src/field/mod_e382_105.rs::small_mul_assign", "src/field/mod_e383_187.rs::small_mul_assign", "src/field/mod_e414_17.rs::small_mul_assign", "src/field/mod_e511_187.rs::small_mul_assign", "src/field/mod_e521_1.rs::small_mul_assign"]}
{"id": "C08", "title": "normalize produces the canonical residue", "statement": "After a.normalize(), a's words are exactly the base-2^w digits of the residue of a in [0,p), whatever representation a had.", "quantifier": "every field value in the loose shape, all nine fields", "why_tests_cant": "The inputs are tuples of 64-bit words denoting numbers of 221 to 521 bits (times the redundant top-word bits), so no finite set of vectors covers the carry chains.", "anchors": ["src/field/mod_e221_3.rs::Normalize::normalize", "src/field/mod_e222_117.rs::Normalize::normalize", "src/field/mod_e251_9.rs::Normalize::normalize", "src/field/mod_e255_19.rs::Normalize::normalize", "src/field/mod_e382_105.rs::Normalize::normalize", "src/field/mod_e383_187.rs::Normalize::normalize", "src/field/mod_e414_17.rs::Normalize::normalize", "src/field/mod_e511_187.rs::Normalize::normalize", "src/field/mod_e521_1.rs::Normalize::normalize"]}
{"id": "C09", "title": "normalize on the sound domain", "statement": "Exactly which representations normalize handles: if a's value with its carry folded back is non-negative the result is canonical and congruent; otherwise it is not canonical.", "quantifier": "every field value in the loose shape (both directions of the equivalence)", "why_tests_cant": "The inputs are tuples of 64-bit words denoting numbers of 221 to 521 bits (times the redundant top-word bits), so no finite set of vectors covers the carry chains.", "anchors": ["src/field/mod_e221_3.rs::Normalize::normalize", "src/field/mod_e222_117.rs::Normalize::normalize", "src/field/mod_e251_9.rs::Normalize::normalize", "src/field/mod_e255_19.rs::Normalize::normalize", "src/field/mod_e382_105.rs::Normalize::normalize", "src/field/mod_e383_187.rs::Normalize::normalize", "src/field/mod_e414_17.rs::Normalize::normalize", "src/field/mod_e511_187.rs::Normalize::normalize", "src/field/mod_e521_1.rs::Normalize::normalize"]}
{"id": "C10", "title": "unpack reads little-endian", "statement": "unpack(bytes) and unpacked(bytes) yield the value whose little-endian encoding is the first nbytes() bytes, for arbitrary (also non-canonical) byte strings; bits beyond nbits() are dropped (mod_e383_187 keeps the 384th bit), the rest of the slice is ignored and the bytes are not changed.", "quantifier": "every byte slice of length at least nbytes()", "why_tests_cant": "2^224 to 2^528 byte strings; shifts and masks interact with every byte value.", "anchors": ["src/field/mod_e221_3.rs::Pack::unpack/unpacked", "src/field/mod_e222_117.rs::Pack::unpack/unpacked", "src/field/mod_e251_9.rs::Pack::unpack/unpacked", "src/field/mod_e255_19.rs::Pack::unpack/unpacked", "src/field/mod_e382_105.rs::Pack::unpack/unpacked", "src/field/mod_e383_187.rs::Pack::unpack/unpacked", "src/field/mod_e414_17.rs::Pack::unpack/unpacked", "src/field/mod_e511_187.rs::Pack::unpack/unpacked", "src/field/mod_e521_1.rs::Pack::unpack/unpacked"]}
{"id": "C11", "title": "pack emits the canonical little-endian encoding", "statement": "pack(bytes) writes to the first nbytes() bytes the little-endian encoding of the unique residue in [0,p) of the packed value and leaves the rest of the slice untouched; pack_normalized does the same for a value that is already normalised, without changing it.", "quantifier": "every field value normalize handles, every slice of length at least nbytes(), and any prior contents", "why_tests_cant": "The inputs are tuples of 64-bit words denoting numbers of 221 to 521 bits (times the redundant top-word bits), so no finite set of vectors covers the carry chains.", "anchors": ["src/field/mod_e221_3.rs::Pack::pack/pack_normalized/packed", "src/field/mod_e222_117.rs::Pack::pack/pack_normalized/packed", "src/field/mod_e251_9.rs::Pack::pack/pack_normalized/packed", "src/field/mod_e255_19.rs::Pack::pack/pack_normalized/packed", "src/field/mod_e382_105.rs::Pack::pack/pack_normalized/packed", "src/field/mod_e383_187.rs::Pack::pack/pack_normalized/packed", "src/field/mod_e414_17.rs::Pack::pack/pack_normalized/packed", "src/field/mod_e511_187.rs::Pack::pack/pack_normalized/packed", "src/field/mod_e521_1.rs::Pack::pack/pack_normalized/packed"]}
{"id": "C12", "title": "pack and unpack are inverse", "statement": "unpacked(packed(x)) is congruent to x, and packed(unpacked(b)) = b whenever b encodes a number below p; otherwise it is the encoding of that number mod p.", "quantifier": "every value and every byte string", "why_tests_cant": "Round trips over the whole value space cannot be enumerated.", "anchors": ["src/field/mod_e221_3.rs::pack/unpack/packed/unpacked", "src/field/mod_e222_117.rs::pack/unpack/packed/unpacked", "src/field/mod_e251_9.rs::pack/unpack/packed/unpacked", "src/field/mod_e255_19.rs::pack/unpack/packed/unpacked", "src/field/mod_e382_105.rs::pack/unpack/packed/unpacked", "src/field/mod_e383_187.rs::pack/unpack/packed/unpacked", "src/field/mod_e414_17.rs::pack/unpack/packed/unpacked", "src/field/mod_e511_187.rs::pack/unpack/packed/unpacked", "src/field/mod_e521_1.rs::pack/unpack/packed/unpacked"]}
{"id": "C13", "title": "Encodings identify residues", "statement": "Two values have identical packed bytes if and only if they are congruent modulo p.", "quantifier": "every pair of values normalize handles", "why_tests_cant": "Quantifies over pairs of representations of the same residue.", "anchors": ["src/field/mod_e221_3.rs::pack/normalize", "src/field/mod_e222_117.rs::pack/normalize", "src/field/mod_e251_9.rs::pack/normalize", "src/field/mod_e255_19.rs::pack/normalize", "src/field/mod_e382_105.rs::pack/normalize", "src/field/mod_e383_187.rs::pack/normalize", "src/field/mod_e414_17.rs::pack/normalize", "src/field/mod_e511_187.rs::pack/normalize", "src/field/mod_e521_1.rs::pack/normalize"]}
{"id": "C14", "title": "Short buffers panic, long ones do not", "statement": "pack/unpack on a slice shorter than nbytes() panics (never reads or writes out of bounds), and on a slice at least that long never panics.", "quantifier": "every slice length and content, every field value", "why_tests_cant": "All lengths and contents.", "anchors": ["src/field/mod_e221_3.rs::pack_normalized/unpack/nbytes", "src/field/mod_e222_117.rs::pack_normalized/unpack/nbytes", "src/field/mod_e251_9.rs::pack_normalized/unpack/nbytes", "src/field/mod_e255_19.rs::pack_normalized/unpack/nbytes", "src/field/mod_e382_105.rs::pack_normalized/unpack/nbytes", "src/field/mod_e383_187.rs::pack_normalized/unpack/nbytes", "src/field/mod_e414_17.rs::pack_normalized/unpack/nbytes", "src/field/mod_e511_187.rs::pack_normalized/unpack/nbytes", "src/field/mod_e521_1.rs::pack_normalized/unpack/nbytes"]}
{"id": "C15", "title": "Equality decides congruence", "statement": "a.normalize_eq(&mut b) returns true iff a and b are congruent mod p; normalize_self_eq does so when b is already canonical.", "quantifier": "every pair of values normalize handles", "why_tests_cant": "Must hold for every pair; false positives are unreachable by random tests.", "anchors": ["src/field/mod_e221_3.rs::normalize_eq/normalize_self_eq", "src/field/mod_e222_117.rs::normalize_eq/normalize_self_eq", "src/field/mod_e251_9.rs::normalize_eq/normalize_self_eq", "src/field/mod_e255_19.rs::normalize_eq/normalize_self_eq", "src/field/mod_e382_105.rs::normalize_eq/normalize_self_eq", "src/field/mod_e383_187.rs::normalize_eq/normalize_self_eq", "src/field/mod_e414_17.rs::normalize_eq/normalize_self_eq", "src/field/mod_e511_187.rs::normalize_eq/normalize_self_eq", "src/field/mod_e521_1.rs::normalize_eq/normalize_self_eq"]}
{"id": "C16", "title": "Observers do not change the value", "statement": "normalize, pack, packed, bit, normalize_eq, hex formatting and the by-reference operators leave every operand denoting the same residue as before.", "quantifier": "every operand value normalize handles", "why_tests_cant": "The inputs are tuples of 64-bit words denoting numbers of 221 to 521 bits (times the redundant top-word bits), so no finite set of vectors covers the carry chains.", "anchors": ["src/field/mod_e221_3.rs::normalize/pack/bit/normalize_eq/fmt", "src/field/mod_e222_117.rs::normalize/pack/bit/normalize_eq/fmt", "src/field/mod_e251_9.rs::normalize/pack/bit/normalize_eq/fmt", "src/field/mod_e255_19.rs::normalize/pack/bit/normalize_eq/fmt", "src/field/mod_e382_105.rs::normalize/pack/bit/normalize_eq/fmt", "src/field/mod_e383_187.rs::normalize/pack/bit/normalize_eq/fmt", "src/field/mod_e414_17.rs::normalize/pack/bit/normalize_eq/fmt", "src/field/mod_e511_187.rs::normalize/pack/bit/normalize_eq/fmt", "src/field/mod_e521_1.rs::normalize/pack/bit/normalize_eq/fmt"]}
{"id": "C17", "title": "bit reads the binary digits", "statement": "bit(i) is the i-th binary digit of the canonical residue for every i below nbits(); bit_normalized(i) likewise on canonical values; indices beyond the words panic.", "quantifier": "every value, every index (no bound)", "why_tests_cant": "The inputs are tuples of 64-bit words denoting numbers of 221 to 521 bits (times the redundant top-word bits), so no finite set of vectors covers the carry chains.", "anchors": ["src/field/mod_e221_3.rs::bit/bit_normalized/nbits", "src/field/mod_e222_117.rs::bit/bit_normalized/nbits", "src/field/mod_e251_9.rs::bit/bit_normalized/nbits", "src/field/mod_e255_19.rs::bit/bit_normalized/nbits", "src/field/mod_e382_105.rs::bit/bit_normalized/nbits", "src/field/mod_e383_187.rs::bit/bit_normalized/nbits", "src/field/mod_e414_17.rs::bit/bit_normalized/nbits", "src/field/mod_e511_187.rs::bit/bit_normalized/nbits", "src/field/mod_e521_1.rs::bit/bit_normalized/nbits"]}
{"id": "C18", "title": "Masks select", "statement": "With m = filled(b), normalized_bitand(&m) leaves x if b and zero words otherwise, and (x & filled(b)) | (y & filled(!b)) is x if b else y word for word, so the branch-free select is exact; normalize_self_bitand(&m) leaves the canonical form of x, or zero.", "quantifier": "every pair of values, both booleans; also any representation for the normalized_ forms", "why_tests_cant": "The inputs are tuples of 64-bit words denoting numbers of 221 to 521 bits (times the redundant top-word bits), so no finite set of vectors covers the carry chains.", "anchors": ["src/field/mod_e221_3.rs::fill/filled/normalized_bitand/normalized_bitor/normalize_bitand/normalize_bitor/PrimeFieldMask", "src/field/mod_e222_117.rs::fill/filled/normalized_bitand/normalized_bitor/normalize_bitand/normalize_bitor/PrimeFieldMask", "src/field/mod_e251_9.rs::fill/filled/normalized_bitand/normalized_bitor/normalize_bitand/normalize_bitor/PrimeFieldMask", "src/field/mod_e255_19.rs::fill/filled/normalized_bitand/normalized_bitor/normalize_bitand/normalize_bitor/PrimeFieldMask", "src/field/mod_e382_105.rs::fill/filled/normalized_bitand/normalized_bitor/normalize_bitand/normalize_bitor/PrimeFieldMask", "src/field/mod_e383_187.rs::fill/filled/normalized_bitand/normalized_bitor/normalize_bitand/normalize_bitor/PrimeFieldMask", "src/field/mod_e414_17.rs::fill/filled/normalized_bitand/normalized_bitor/normalize_bitand/normalize_bitor/PrimeFieldMask", "src/field/mod_e511_187.rs::fill/filled/normalized_bitand/normalized_bitor/normalize_bitand/normalize_bitor/PrimeFieldMask", "src/field/mod_e521_1.rs::fill/filled/normalized_bitand/normalized_bitor/normalize_bitand/normalize_bitor/PrimeFieldMask"]}
{"id": "C19", "title": "All operator forms agree", "statement": "The by-value, by-reference, assign and i32/i16/i8 forms of + - * / on the same operands give word-for-word the same result (or panic together).", "quantifier": "every operand pair, every one of the operator impls, all nine fields", "why_tests_cant": "Sixty operator impls per field, each over the full operand space.", "anchors": ["src/field/mod_e221_3.rs::Add/Sub/Mul/Div/AddAssign/SubAssign/MulAssign/DivAssign", "src/field/mod_e222_117.rs::Add/Sub/Mul/Div/AddAssign/SubAssign/MulAssign/DivAssign", "src/field/mod_e251_9.rs::Add/Sub/Mul/Div/AddAssign/SubAssign/MulAssign/DivAssign", "src/field/mod_e255_19.rs::Add/Sub/Mul/Div/AddAssign/SubAssign/MulAssign/DivAssign", "src/field/mod_e382_105.rs::Add/Sub/Mul/Div/AddAssign/SubAssign/MulAssign/DivAssign", "src/field/mod_e383_187.rs::Add/Sub/Mul/Div/AddAssign/SubAssign/MulAssign/DivAssign", "src/field/mod_e414_17.rs::Add/Sub/Mul/Div/AddAssign/SubAssign/MulAssign/DivAssign", "src/field/mod_e511_187.rs::Add/Sub/Mul/Div/AddAssign/SubAssign/MulAssign/DivAssign", "src/field/mod_e521_1.rs::Add/Sub/Mul/Div/AddAssign/SubAssign/MulAssign/DivAssign"]}
{"id": "C20", "title": "Constants denote what they name", "statement": "zero(), one(), m_one() and modulus() denote 0, 1, p-1 and p; p is prime for each of the nine fields; nbits()/nbytes() are the sizes of p.", "quantifier": "nine fields (primality quantifies over all possible divisors)", "why_tests_cant": "Primality of a 221-521 bit number cannot be settled by testing divisors.", "anchors": ["src/field/mod_e221_3.rs::ZERO/ONE/M_ONE/MODULUS/nbits/nbytes", "src/field/mod_e222_117.rs::ZERO/ONE/M_ONE/MODULUS/nbits/nbytes", "src/field/mod_e251_9.rs::ZERO/ONE/M_ONE/MODULUS/nbits/nbytes", "src/field/mod_e255_19.rs::ZERO/ONE/M_ONE/MODULUS/nbits/nbytes", "src/field/mod_e382_105.rs::ZERO/ONE/M_ONE/MODULUS/nbits/nbytes", "src/field/mod_e383_187.rs::ZERO/ONE/M_ONE/MODULUS/nbits/nbytes", "src/field/mod_e414_17.rs::ZERO/ONE/M_ONE/MODULUS/nbits/nbytes", "src/field/mod_e511_187.rs::ZERO/ONE/M_ONE/MODULUS/nbits/nbytes", "src/field/mod_e521_1.rs::ZERO/ONE/M_ONE/MODULUS/nbits/nbytes"]}
{"id": "C21", "title": "Inversion", "statement": "x.inverted() * x is congruent to 1 for every x not congruent to 0 and inverted() of 0 is 0; no overflow or panic on the way.", "quantifier": "every value in the multiplication domain, all nine fields", "why_tests_cant": "Quantifies over all field elements; correctness rests on primality of p and a several-hundred-step exponentiation.", "anchors": ["src/field/mod_e221_3.rs::invert/inverted", "src/field/mod_e222_117.rs::invert/inverted", "src/field/mod_e251_9.rs::invert/inverted", "src/field/mod_e255_19.rs::invert/inverted", "src/field/mod_e382_105.rs::invert/inverted", "src/field/mod_e383_187.rs::invert/inverted", "src/field/mod_e414_17.rs::invert/inverted", "src/field/mod_e511_187.rs::invert/inverted", "src/field/mod_e521_1.rs::invert/inverted"]}
{"id": "C22", "title": "Division undoes multiplication", "statement": "(a / b) * b is congruent to a for every b not congruent to 0.", "quantifier": "every pair of values in the multiplication domain", "why_tests_cant": "All pairs.", "anchors": ["src/field/mod_e221_3.rs::Div::div/DivAssign::div_assign", "src/field/mod_e222_117.rs::Div::div/DivAssign::div_assign", "src/field/mod_e251_9.rs::Div::div/DivAssign::div_assign", "src/field/mod_e255_19.rs::Div::div/DivAssign::div_assign", "src/field/mod_e382_105.rs::Div::div/DivAssign::div_assign", "src/field/mod_e383_187.rs::Div::div/DivAssign::div_assign", "src/field/mod_e414_17.rs::Div::div/DivAssign::div_assign", "src/field/mod_e511_187.rs::Div::div/DivAssign::div_assign", "src/field/mod_e521_1.rs::Div::div/DivAssign::div_assign"]}
{"id": "C23", "title": "Legendre symbol", "statement": "legendre() is congruent to 1 exactly when x is a non-zero square mod p, to p-1 exactly when it is a non-square, and to 0 exactly when x is 0.", "quantifier": "every value in the multiplication domain", "why_tests_cant": "Existence/non-existence of a square root quantifies over the whole field.", "anchors": ["src/field/mod_e221_3.rs::legendre", "src/field/mod_e222_117.rs::legendre", "src/field/mod_e251_9.rs::legendre", "src/field/mod_e255_19.rs::legendre", "src/field/mod_e382_105.rs::legendre", "src/field/mod_e383_187.rs::legendre", "src/field/mod_e414_17.rs::legendre", "src/field/mod_e511_187.rs::legendre", "src/field/mod_e521_1.rs::legendre"]}
{"id": "C24", "title": "Square roots", "statement": "If x is a square mod p then sqrt() returns r with r*r congruent to x. If x is not a square, sqrt() still returns, and r*r is not congruent to x, so squaring the result tells the cases apart. For moduli that are 3 mod 4 the root returned is the one that is itself a square.", "quantifier": "every square in the field, and every non-square, all nine fields", "why_tests_cant": "All squares of the field.", "anchors": ["src/field/mod_e221_3.rs::sqrt/quartic_legendre/M_HALF/COEFF", "src/field/mod_e222_117.rs::sqrt/quartic_legendre/M_HALF/COEFF", "src/field/mod_e251_9.rs::sqrt/quartic_legendre/M_HALF/COEFF", "src/field/mod_e255_19.rs::sqrt/quartic_legendre/M_HALF/COEFF", "src/field/mod_e382_105.rs::sqrt/quartic_legendre/M_HALF/COEFF", "src/field/mod_e383_187.rs::sqrt/quartic_legendre/M_HALF/COEFF", "src/field/mod_e414_17.rs::sqrt/quartic_legendre/M_HALF/COEFF", "src/field/mod_e511_187.rs::sqrt/quartic_legendre/M_HALF/COEFF", "src/field/mod_e521_1.rs::sqrt/quartic_legendre/M_HALF/COEFF"]}
{"id": "C25", "title": "No overflow, no panic, over any history", "statement": "No finite sequence of library calls on field values, however long and however results are fed back, overflows an i64, panics, or makes the words leave the loose shape, so debug and release builds agree.", "quantifier": "every finite program over the safe operations, unbounded depth", "why_tests_cant": "Redundant representations accumulate carries over histories; tests exercise depth one.", "anchors": ["src/field/mod_e221_3.rs::add_assign/sub_assign/mul_assign/small_add_assign/small_mul_assign/square", "src/field/mod_e222_117.rs::add_assign/sub_assign/mul_assign/small_add_assign/small_mul_assign/square", "src/field/mod_e251_9.rs::add_assign/sub_assign/mul_assign/small_add_assign/small_mul_assign/square", "src/field/mod_e255_19.rs::add_assign/sub_assign/mul_assign/small_add_assign/small_mul_assign/square", "src/field/mod_e382_105.rs::add_assign/sub_assign/mul_assign/small_add_assign/small_mul_assign/square", "src/field/mod_e383_187.rs::add_assign/sub_assign/mul_assign/small_add_assign/small_mul_assign/square", "src/field/mod_e414_17.rs::add_assign/sub_assign/mul_assign/small_add_assign/small_mul_assign/square", "src/field/mod_e511_187.rs::add_assign/sub_assign/mul_assign/small_add_assign/small_mul_assign/square", "src/field/mod_e521_1.rs::add_assign/sub_assign/mul_assign/small_add_assign/small_mul_assign/square"]}
{"id": "C26", "title": "Expressions evaluate to their ring value", "statement": "Any expression built from unpacked inputs and the supported operations, evaluated with the library and then packed, gives the encoding of the same expression evaluated in Z/p.", "quantifier": "every expression tree over the supported operations (unbounded size), every input", "why_tests_cant": "Unbounded compositions.", "anchors": ["src/field/mod_e221_3.rs::add_assign/mul_assign/square/small_add_assign/small_sub_assign/pack", "src/field/mod_e222_117.rs::add_assign/mul_assign/square/small_add_assign/small_sub_assign/pack", "src/field/mod_e251_9.rs::add_assign/mul_assign/square/small_add_assign/small_sub_assign/pack", "src/field/mod_e255_19.rs::add_assign/mul_assign/square/small_add_assign/small_sub_assign/pack", "src/field/mod_e382_105.rs::add_assign/mul_assign/square/small_add_assign/small_sub_assign/pack", "src/field/mod_e383_187.rs::add_assign/mul_assign/square/small_add_assign/small_sub_assign/pack", "src/field/mod_e414_17.rs::add_assign/mul_assign/square/small_add_assign/small_sub_assign/pack", "src/field/mod_e511_187.rs::add_assign/mul_assign/square/small_add_assign/small_sub_assign/pack", "src/field/mod_e521_1.rs::add_assign/mul_assign/square/small_add_assign/small_sub_assign/pack"]}
{"id": "C27", "title": "Ring laws are observable", "statement": "Commutativity, associativity, distributivity and identities hold up to packed encoding.", "quantifier": "every triple of values", "why_tests_cant": "All triples.", "anchors": ["src/field/mod_e221_3.rs::add_assign/mul_assign/pack", "src/field/mod_e222_117.rs::add_assign/mul_assign/pack", "src/field/mod_e251_9.rs::add_assign/mul_assign/pack", "src/field/mod_e255_19.rs::add_assign/mul_assign/pack", "src/field/mod_e382_105.rs::add_assign/mul_assign/pack", "src/field/mod_e383_187.rs::add_assign/mul_assign/pack", "src/field/mod_e414_17.rs::add_assign/mul_assign/pack", "src/field/mod_e511_187.rs::add_assign/mul_assign/pack", "src/field/mod_e521_1.rs::add_assign/mul_assign/pack"]}
{"id": "C28", "title": "Random elements are canonical", "statement": "rand() always returns a canonical element in [0,p) and never panics, whatever the generator yields.", "quantifier": "every sequence of generator outputs", "why_tests_cant": "All generator outputs.", "anchors": ["src/field/mod_e221_3.rs::Rand::rand", "src/field/mod_e222_117.rs::Rand::rand", "src/field/mod_e251_9.rs::Rand::rand", "src/field/mod_e255_19.rs::Rand::rand", "src/field/mod_e382_105.rs::Rand::rand", "src/field/mod_e383_187.rs::Rand::rand", "src/field/mod_e414_17.rs::Rand::rand", "src/field/mod_e511_187.rs::Rand::rand", "src/field/mod_e521_1.rs::Rand::rand"]}
{"id": "C29", "title": "Random elements cover the field", "statement": "Every element of the field can be returned by rand().", "quantifier": "every element of the field", "why_tests_cant": "Existence of an unreachable element is invisible to sampling.", "anchors": ["src/field/mod_e221_3.rs::Rand::rand", "src/field/mod_e222_117.rs::Rand::rand", "src/field/mod_e251_9.rs::Rand::rand", "src/field/mod_e255_19.rs::Rand::rand", "src/field/mod_e382_105.rs::Rand::rand", "src/field/mod_e383_187.rs::Rand::rand", "src/field/mod_e414_17.rs::Rand::rand", "src/field/mod_e511_187.rs::Rand::rand", "src/field/mod_e521_1.rs::Rand::rand"]}
{"id": "C30", "title": "Hex formatting", "statement": "{:x} and {:X} print exactly 2*nbytes() hexadecimal digits which read as a big-endian number give the canonical residue, lower and upper case respectively.", "quantifier": "every value normalize handles", "why_tests_cant": "The inputs are tuples of 64-bit words denoting numbers of 221 to 521 bits (times the redundant top-word bits), so no finite set of vectors covers the carry chains.", "anchors": ["src/field/mod_e221_3.rs::LowerHex::fmt/UpperHex::fmt", "src/field/mod_e222_117.rs::LowerHex::fmt/UpperHex::fmt", "src/field/mod_e251_9.rs::LowerHex::fmt/UpperHex::fmt", "src/field/mod_e255_19.rs::LowerHex::fmt/UpperHex::fmt", "src/field/mod_e382_105.rs::LowerHex::fmt/UpperHex::fmt", "src/field/mod_e383_187.rs::LowerHex::fmt/UpperHex::fmt", "src/field/mod_e414_17.rs::LowerHex::fmt/UpperHex::fmt", "src/field/mod_e511_187.rs::LowerHex::fmt/UpperHex::fmt", "src/field/mod_e521_1.rs::LowerHex::fmt/UpperHex::fmt"]}
{"id": "C31", "title": "Unified point addition is the Edwards law", "statement": "For two curve points in extended coordinates (x=X/Z, y=Y/Z, T=XY/Z), p1 + p2 computes extended coordinates of the Edwards sum, over any field implementation that computes correctly.", "quantifier": "every prime p, every curve parameter d, every pair of points, every lawful field implementation", "why_tests_cant": "Quantifies over all points of all curves.", "anchors": ["src/curve/edwards.rs::AddAssign::add_assign", "src/curve/edwards.rs::Add::add"]}
{"id": "C32", "title": "Point doubling is P+P", "statement": "double()/doubled() computes extended coordinates of P+P and agrees projectively with the unified addition.", "quantifier": "every curve point, every lawful field implementation", "why_tests_cant": "All points.", "anchors": ["src/curve/edwards.rs::double", "src/curve/edwards.rs::doubled"]}
{"id": "C33", "title": "Point tripling is P+P+P", "statement": "triple()/tripled() computes extended coordinates of (P+P)+P.", "quantifier": "every curve point, every lawful field implementation", "why_tests_cant": "All points.", "anchors": ["src/curve/edwards.rs::triple", "src/curve/edwards.rs::tripled"]}
{"id": "C34", "title": "Addition is complete", "statement": "When d is not a square, no pair of curve points is exceptional: the resulting Z is never 0, and the result is again on the curve with T*Z = X*Y.", "quantifier": "every pair of points on the curve, every d that is a non-square", "why_tests_cant": "Absence of exceptional points cannot be sampled.", "anchors": ["src/curve/edwards.rs::add_assign", "src/curve/edwards.rs::double", "src/curve/edwards.rs::triple"]}
{"id": "C35", "title": "zero() is the neutral element", "statement": "P + zero() denotes P for every P.", "quantifier": "every point", "why_tests_cant": "All points.", "anchors": ["src/curve/edwards.rs::zero"]}
{"id": "C36", "title": "init builds a valid extended point", "statement": "After init(x,y) the point satisfies the extended-coordinate invariant, so that group operations on it are right.", "quantifier": "every affine curve point", "why_tests_cant": "All points.", "anchors": ["src/curve/edwards.rs::init"]}
{"id": "C37", "title": "scalar_mult computes n*P", "statement": "p.scalar_mult(n) denotes the n-fold sum of p for every n.", "quantifier": "every point and every scalar", "why_tests_cant": "2^222 to 2^521 scalars.", "anchors": ["src/curve/edwards.rs::scalar_mult", "src/curve/edwards.rs::scalar_mult_normalized"]}
{"id": "C38", "title": "Curve operations over the shipped fields", "statement": "The Edwards formulas, run over the five shipped field types, denote the same point operations as over an ideal field.", "quantifier": "every point of every shipped curve", "why_tests_cant": "All points; depends on which internal representations have pending carries.", "anchors": ["src/curve/edwards.rs::add_assign", "src/curve/edwards.rs::double", "src/curve/edwards.rs::triple", "src/curve/e_222.rs", "src/curve/curve1174.rs", "src/curve/e_382.rs", "src/curve/curve41417.rs", "src/curve/e_521.rs"]}
{"id": "C39", "title": "Curve constants", "statement": "For each shipped curve d_val() is the documented d in reduced form, it is not zero and not a square modulo p, so any two points of the curve have a sum on the curve.", "quantifier": "the five curves (non-squareness quantifies over the whole field)", "why_tests_cant": "Non-squareness quantifies over all field elements.", "anchors": ["src/curve/e_222.rs", "src/curve/curve1174.rs", "src/curve/e_382.rs", "src/curve/curve41417.rs", "src/curve/e_521.rs"]}
{"id": "C40", "title": "Secret-independent execution", "statement": "The sequence of operations executed, with array positions, shift distances, loop counts, calls and usize operands, depends only on the shapes of the inputs (and on the bit number given to bit/bit_normalized), never on their values; with overflow checks on, a panic can only cut the sequence short. Debug formatting is excluded: its text length depends on the words. The same holds of whole programs of any length that differ only in their starting values, decoded bytes (of the same number), random draws (of the same number), small integers, scalars and coordinates.", "quantifier": "every pair of inputs of the same shape, all field and curve functions except Debug::fmt, both build modes; every pair of such programs in release builds, and every pair of completed runs with overflow checks", "why_tests_cant": "Relates all pairs of executions.", "anchors": ["src/field/mod_e221_3.rs::mul_assign/invert/pack/sqrt", "src/field/mod_e222_117.rs::mul_assign/invert/pack/sqrt", "src/field/mod_e251_9.rs::mul_assign/invert/pack/sqrt", "src/field/mod_e255_19.rs::mul_assign/invert/pack/sqrt", "src/field/mod_e382_105.rs::mul_assign/invert/pack/sqrt", "src/field/mod_e383_187.rs::mul_assign/invert/pack/sqrt", "src/field/mod_e414_17.rs::mul_assign/invert/pack/sqrt", "src/field/mod_e511_187.rs::mul_assign/invert/pack/sqrt", "src/field/mod_e521_1.rs::mul_assign/invert/pack/sqrt", "src/curve/edwards.rs::scalar_mult_normalized"]}
{"id": "C41", "title": "normalize_bitand with a mask", "statement": "x.normalize_bitand(&mut filled(true)) leaves x denoting the same residue, like the other masking methods.", "quantifier": "every value, all nine fields", "why_tests_cant": "The mask is itself an element type, so the fault shows only for the combination of a mask and the method that also normalises its argument.", "anchors": ["src/field/mod_e221_3.rs: normalize_bitand, filled", "src/field/prime_field.rs: PrimeField"]}
{"id": "C42", "title": "Bitwise operations act on canonical residues", "statement": "normalize_bitand(&mut b) and normalize_bitor(&mut b) leave the bitwise and/or of the two canonical residues as integers, and b in canonical form; normalize_self_bitand and normalize_self_bitor do the same without touching b, and normalized_bitand and normalized_bitor act word by word.", "quantifier": "every pair of values normalize handles, all nine fields", "why_tests_cant": "Ranges over all pairs of representations, including those with pending carries.", "anchors": ["src/field/mod_e221_3.rs: normalize_bitand, normalize_bitor"]}
{"id": "C43", "title": "Debug text shows every word", "statement": "{:?} appends to the formatter the type name, and then every word in order, each as its 64-bit two's complement pattern in lower-case hexadecimal without superfluous zeros, separated by commas and enclosed in brackets; it changes neither the value nor the text already written, never panics, and two values with the same debug text have the same words.", "quantifier": "every array of i64 words, every text already in the formatter, both build modes, all nine fields", "why_tests_cant": "The inputs are all tuples of 64-bit words, including negative and unreduced ones; injectivity quantifies over pairs of them.", "anchors": ["src/field/mod_e221_3.rs::Debug::fmt", "src/field/mod_e222_117.rs::Debug::fmt", "src/field/mod_e251_9.rs::Debug::fmt", "src/field/mod_e255_19.rs::Debug::fmt", "src/field/mod_e382_105.rs::Debug::fmt", "src/field/mod_e383_187.rs::Debug::fmt", "src/field/mod_e414_17.rs::Debug::fmt", "src/field/mod_e511_187.rs::Debug::fmt", "src/field/mod_e521_1.rs::Debug::fmt"]}
{"id": "C44", "title": "Points form a commutative group", "statement": "Over a field whose operations are correct and with d not a square, point addition is commutative and associative up to projective equality, a valid (0,1) is neutral, (-x,y) is the inverse of (x,y); and any way of combining additions and doublings that uses P n times never fails and yields n times P, the same point whatever the order.", "quantifier": "every prime field implementation satisfying the field contract, every non-square d, all points of the curve in any valid extended coordinates, all addition chains of any length, both build modes", "why_tests_cant": "Associativity quantifies over triples of points and chains over unbounded sequences of calls.", "anchors": ["src/curve/edwards.rs: Add, AddAssign, double, doubled", "src/curve/group.rs", "src/curve/point.rs"]}
{"id": "C45", "title": "Published base points and orders", "statement": "Every base point constant holds reduced words of the documented coordinates and lies on its curve (and is not the neutral point); every order constant holds reduced words of the published group order.", "quantifier": "all ten curves: five Edwards curves and five Montgomery curves with constants in the field files", "why_tests_cant": "The constants are written as packed 54- to 58-bit words; that they solve the curve equation is arithmetic on up to 521-bit integers, which the library itself computes incorrectly in places, so a test written with the library is not evidence.", "anchors": ["src/field/mod_e222_117.rs: E222_BASE_X, E222_BASE_Y, E222_ORDER", "src/field/mod_e251_9.rs: CURVE1174_*", "src/field/mod_e382_105.rs: E382_*", "src/field/mod_e414_17.rs: CURVE41417_*", "src/field/mod_e521_1.rs: E521_*", "src/field/mod_e221_3.rs: M221_*", "src/field/mod_e255_19.rs: CURVE25519_*", "src/field/mod_e383_187.rs: M383_*, CURVE383187_*", "src/field/mod_e511_187.rs: M511_*"]}
{"id": "C46", "title": "The published orders are the exact prime orders of the base points", "statement": "Every order constant is a prime. For the five Edwards curves, n times the published base point is the neutral point exactly when the order constant divides n, and two multiples are the same point exactly when their scalars agree modulo the order; the same holds of whatever is built from the base point by the library's additions and doublings over a correct field. For the five Montgomery curves the same two equivalences hold of the multiples of the published base point under chord-and-tangent addition, with the point at infinity as neutral point. On all points of these curves chord-and-tangent addition is a commutative group: total, single-valued, associative, commutative, with the point at infinity as neutral point and an opposite for every point.", "quantifier": "all ten order constants; all ten base points, all scalars n and m of any size; for the Edwards curves all addition chains", "why_tests_cant": "The orders have 218 to 519 bits: neither primality nor the absence of a smaller period can be tried out, and every scalar is quantified over.", "anchors": ["src/field/mod_e222_117.rs: E222_BASE_X, E222_BASE_Y, E222_ORDER", "src/field/mod_e251_9.rs: CURVE1174_*", "src/field/mod_e382_105.rs: E382_*", "src/field/mod_e414_17.rs: CURVE41417_*", "src/field/mod_e521_1.rs: E521_*", "src/field/mod_e221_3.rs: M221_BASE_X, M221_BASE_Y, M221_ORDER", "src/field/mod_e255_19.rs: CURVE25519_BASE_X, CURVE25519_BASE_Y, CURVE25519_ORDER", "src/field/mod_e383_187.rs: M383_*, CURVE383187_*", "src/field/mod_e511_187.rs: M511_BASE_X, M511_BASE_Y, M511_ORDER", "src/curve/edwards.rs: Add, double"]}
{"id": "C47", "title": "The build profile changes nothing but panics", "statement": "With overflow checks on (debug), any call of any function of the library on any arguments either panics or returns exactly what the release build returns and leaves exactly the same values in its parameters; the same holds of any program of any length made of such calls, on field values or on points.", "quantifier": "every function of every field and curve, all argument values whatsoever, all programs over the field and point APIs, both build profiles", "why_tests_cant": "The debug and release results would have to be compared on every input and every sequence of calls; cargo test and cargo test --release each see only their own profile and a handful of values.", "anchors": ["src/field/mod_e*.rs: all functions", "src/curve/edwards.rs: all functions"]}
{"id": "C48", "title": "Release builds never panic", "statement": "In a release build every function of every field and curve returns on arguments of its declared types, whatever i64 words the elements hold, with results and parameters of the declared types (the right number of i64 words, bytes in 0..256, booleans, buffers of unchanged length), provided byte buffers are long enough, bit numbers are in range and the generator yields enough draws; so programs of any length over field values or points run to their end.", "quantifier": "every function of the nine fields and five curves, all arguments of the declared types including unreduced, negative and overflowing words, all programs", "why_tests_cant": "A panic (index out of bounds, division by zero, empty range) could hide behind any combination of words and any sequence of calls; only a check of all paths for all values excludes it.", "anchors": ["src/field/mod_e*.rs: all functions", "src/curve/edwards.rs: all functions", "src/curve/{e_222,curve1174,e_382,curve41417,e_521}.rs: d_val"]}
{"id": "C49", "title": "Where multiplication is right", "statement": "Multiplying two values that field operations other than small multiplication can return always returns a value of the same kind. In seven fields it is the product mod p. In the fields mod_e222_117 and mod_e251_9 it is the product mod p exactly when the product of the two signed integers the words stand for is not negative and below 4588641*2^425, respectively 2^504.", "quantifier": "every pair of values that field operations other than small multiplication can return, all nine fields, both build profiles", "why_tests_cant": "The faulty pairs are signed or extremely large representations of ordinary residues; a test that does not build such representations passes, and the exact boundary cannot be found by sampling.", "anchors": ["src/field/mod_e221_3.rs: mul_assign", "src/field/mod_e222_117.rs: mul_assign", "src/field/mod_e251_9.rs: mul_assign", "src/field/mod_e255_19.rs: mul_assign", "src/field/mod_e382_105.rs: mul_assign", "src/field/mod_e383_187.rs: mul_assign", "src/field/mod_e414_17.rs: mul_assign", "src/field/mod_e511_187.rs: mul_assign", "src/field/mod_e521_1.rs: mul_assign"]}
{"id": "C50", "title": "What subtraction computes", "statement": "a - b is congruent to a - b + 2*C*k, where p = 2^m - C and k is the number of times 2^m that the words of b still carry; it is right exactly when k = 0.", "quantifier": "every pair of arrays with any 64-bit top word, all nine fields, both build profiles", "why_tests_cant": "Only representations with a pending carry expose the error, and only a proof excludes further error terms.", "anchors": ["src/field/mod_e221_3.rs: sub_assign", "src/field/mod_e222_117.rs: sub_assign", "src/field/mod_e251_9.rs: sub_assign", "src/field/mod_e255_19.rs: sub_assign", "src/field/mod_e382_105.rs: sub_assign", "src/field/mod_e383_187.rs: sub_assign", "src/field/mod_e414_17.rs: sub_assign", "src/field/mod_e511_187.rs: sub_assign", "src/field/mod_e521_1.rs: sub_assign"]}
{"id": "C51", "title": "What negation computes", "statement": "-a is congruent to a, hence the negative of a exactly when a is zero mod p; the operand is unchanged.", "quantifier": "every array with any 64-bit top word, all nine fields, both build profiles", "why_tests_cant": "Says what happens for all arguments, not for one counterexample.", "anchors": ["src/field/mod_e221_3.rs: neg", "src/field/mod_e222_117.rs: neg", "src/field/mod_e251_9.rs: neg", "src/field/mod_e255_19.rs: neg", "src/field/mod_e382_105.rs: neg", "src/field/mod_e383_187.rs: neg", "src/field/mod_e414_17.rs: neg", "src/field/mod_e511_187.rs: neg", "src/field/mod_e521_1.rs: neg"]}
{"id": "C52", "title": "Where small multiplication is right", "statement": "x.small_mul(k) is k*x mod p exactly when x has no pending carry, the top column k*x / 2^(w*(n-1)) fits 64 signed bits and, in mod_e521_1, the carries out of columns 5 to 8 agree. If it is right both build profiles return it; otherwise a debug build returns the same wrong value as a release build, or panics. Right or wrong, outside mod_e521_1 the result is k*x plus C times the pending carry of x (C being 2^b minus p), as a two's complement number of 64 bits more than the words below the top one.", "quantifier": "every value, whatever its top word (so every value any field operation can return), every i32 multiplier, all nine fields", "why_tests_cant": "The condition separates multipliers and values of equal size; 2^32 multipliers times all values cannot be tested.", "anchors": ["src/field/mod_e221_3.rs: small_mul_assign", "src/field/mod_e222_117.rs: small_mul_assign", "src/field/mod_e251_9.rs: small_mul_assign", "src/field/mod_e255_19.rs: small_mul_assign", "src/field/mod_e382_105.rs: small_mul_assign", "src/field/mod_e383_187.rs: small_mul_assign", "src/field/mod_e414_17.rs: small_mul_assign", "src/field/mod_e511_187.rs: small_mul_assign", "src/field/mod_e521_1.rs: small_mul_assign"]}
{"id": "C53", "title": "What normalize_bitand does with a mask", "statement": "x.normalize_bitand(&mut filled(true)) keeps exactly the bits of the residue of x that are set in p - (1 + 2^w + ... ), so it leaves the residue alone exactly when it has no other bits; with filled(false) the result is 0.", "quantifier": "every value normalize handles, all nine fields", "why_tests_cant": "The lost bits depend on the value; only some residues show the difference.", "anchors": ["src/field/mod_e221_3.rs: normalize_bitand, filled", "src/field/mod_e222_117.rs: normalize_bitand, filled", "src/field/mod_e251_9.rs: normalize_bitand, filled", "src/field/mod_e255_19.rs: normalize_bitand, filled", "src/field/mod_e382_105.rs: normalize_bitand, filled", "src/field/mod_e383_187.rs: normalize_bitand, filled", "src/field/mod_e414_17.rs: normalize_bitand, filled", "src/field/mod_e511_187.rs: normalize_bitand, filled", "src/field/mod_e521_1.rs: normalize_bitand, filled"]}
{"id": "C54", "title": "Exactly which elements rand returns", "statement": "The arrays rand() can return are exactly those whose every word is non-negative and below the corresponding word of the modulus.", "quantifier": "every array of words, every stream of random draws, all nine fields", "why_tests_cant": "Reachability over all random streams.", "anchors": ["src/field/mod_e221_3.rs: Rand::rand", "src/field/mod_e222_117.rs: Rand::rand", "src/field/mod_e251_9.rs: Rand::rand", "src/field/mod_e255_19.rs: Rand::rand", "src/field/mod_e382_105.rs: Rand::rand", "src/field/mod_e383_187.rs: Rand::rand", "src/field/mod_e414_17.rs: Rand::rand", "src/field/mod_e511_187.rs: Rand::rand", "src/field/mod_e521_1.rs: Rand::rand"]}
{"id": "C55", "title": "Where inversion, Legendre symbol and square root are right", "statement": "In every field except mod_e251_9, for every non-zero value that field operations other than small multiplication can return: inversion gives the inverse, legendre() the Legendre symbol and sqrt() a square root of a square; in mod_e222_117 this holds exactly for values whose signed integer is not negative (for sqrt: the root that is itself a square is returned exactly then).", "quantifier": "every non-zero value that field operations other than small multiplication can return, eight fields, both build profiles", "why_tests_cant": "Hundreds of chained multiplications on arbitrary representations; the failing ones are signed.", "anchors": ["src/field/mod_e221_3.rs: invert, legendre, sqrt", "src/field/mod_e222_117.rs: invert, legendre, sqrt", "src/field/mod_e251_9.rs: invert, legendre, sqrt", "src/field/mod_e255_19.rs: invert, legendre, sqrt", "src/field/mod_e382_105.rs: invert, legendre, sqrt", "src/field/mod_e383_187.rs: invert, legendre, sqrt", "src/field/mod_e414_17.rs: invert, legendre, sqrt", "src/field/mod_e511_187.rs: invert, legendre, sqrt", "src/field/mod_e521_1.rs: invert, legendre, sqrt"]}
{"id": "C56", "title": "What the point operations compute", "statement": "On any coordinates, on the curve or not, addition and doubling compute the published extended-coordinate formulas, tripling the published formula with one sign exchanged, and scalar multiplication a Montgomery ladder with its two cases exchanged that starts from (0 : 1 : 1) with T = 1; scalar_mult changes its scalar only by normalising it.", "quantifier": "every quadruple of coordinates, every scalar, every field implementation that computes correctly, both build profiles", "why_tests_cant": "All coordinates and all scalars of any bit length.", "anchors": ["src/curve/edwards.rs: add_assign, double, triple, scalar_mult, scalar_mult_normalized"]}
{"id": "C57", "title": "When addition and doubling on the shipped curves are right", "statement": "On the shipped curves, adding two represented points never panics, and (when the field products involved come out right, which is always the case on E-382, Curve41417 and E-521) the result represents the sum of the two points if and only if the pending carries of x1 x2 and y1 y2 cancel, the error that the carry of d t1 t2 makes in z1 z2 - d t1 t2 stands to the error that the carry of x1 x2 makes in y1 y2 - x1 x2 as these factors do, and the factor with its error is not zero. Doubling has a condition of the same kind. For points with canonical coordinates the first part says that neither product has a pending carry.", "quantifier": "every pair of points in any representation the library produces, all five curves, both build profiles", "why_tests_cant": "The carries are rare for random points, so tests of random points pass; which points fail needs a statement over all of them.", "anchors": ["src/curve/edwards.rs: add_assign, double", "src/field/mod_e382_105.rs: sub_assign, mul_assign", "src/field/mod_e414_17.rs: sub_assign, mul_assign", "src/field/mod_e521_1.rs: sub_assign, mul_assign"]}
{"id": "C58", "title": "Point operations on the shipped curves are right whenever no field result is wrong", "statement": "If, during an addition, doubling or tripling on a shipped curve, every field addition, subtraction, product, square and normalisation happens to return a result congruent to the right one, then the operation returns, in both build profiles, exactly what its published formulas give; for addition and doubling of points on the curve this represents the sum or double. So the only sources of wrong sums and doubles are wrong field results.", "quantifier": "every quadruple of field values (any top word), on the curve or not, all five curves, every spelling of the operations, both build profiles", "why_tests_cant": "A test sees only the end result; that a right end result follows from right intermediate results for all inputs needs a proof about the formulas.", "anchors": ["src/curve/edwards.rs: add_assign, add, double, doubled, triple, tripled", "src/field/mod_e222_117.rs: sub_assign, mul_assign", "src/field/mod_e382_105.rs: sub_assign"]}
{"id": "C59", "title": "Scalar multiplication on the shipped curves is its ladder, word for word", "statement": "On the shipped curves scalar_mult_normalized returns exactly the words obtained from the pair (zero(), P) by going through the bits of the scalar, as bit_normalized reads them, from the highest down, replacing (R0, R1) by (2 R0, R0 + R1) for a bit that is 1 and by (R0 + R1, 2 R1) for a bit that is 0, where sums and doubles are what the library's own addition and doubling return, right or wrong; the masks never alter a coordinate. scalar_mult does the same with the normalised scalar, which it leaves in its argument.", "quantifier": "every point and scalar in any representation the library produces, all five curves, both build profiles", "why_tests_cant": "All scalars of up to 521 bits and all representations of the point; a mask that altered a coordinate for rare values would pass tests.", "anchors": ["src/curve/edwards.rs: scalar_mult, scalar_mult_normalized, normalized_bitand, normalized_bitor"]}
{"id": "C60", "title": "Normalising every field result makes addition and doubling on the shipped curves right", "statement": "If the result of every field addition, subtraction, product, square and small product is normalised before it is used again, then on all five shipped curves addition and doubling of points of the curve with reduced coordinates return reduced coordinates of the group-law sum and double, without exception and the same in both build profiles; any combination of additions and doublings that uses a point n times gives n times the point, and every n > 0 is reachable. Scalar multiplication remains the ladder with its two cases exchanged.", "quantifier": "every pair of points of each of the five curves in reduced extended coordinates, every scalar, every way of combining additions and doublings, both build profiles", "why_tests_cant": "About 2^220 to 2^521 points per curve and unboundedly many combinations; a single missed carry in a field operation would spoil only rare inputs.", "anchors": ["src/curve/edwards.rs: add_assign, double, scalar_mult", "src/field/mod_e521_1.rs: small_mul_assign, normalize", "src/field/mod_e222_117.rs: mul_assign, sub_assign, normalize"]}
{"id": "C61", "title": "What the observers do with every value", "statement": "For every value the field operations can return, with any pending carry, normalize, pack, packed, pack_normalized, bit, bit_normalized, equality, bitwise and and or and hexadecimal text behave exactly as follows. With f the value after folding its carry: if f >= 0 they observe the residue; if -C <= f < 0, normalize keeps the residue but leaves the negative number f, the bytes and text hold 2^k + f, which is no canonical encoding, and bits are those of f; if f < -C, normalize changes the residue, to f - 2C. Equality never holds of values that are not congruent, and fails for congruent values exactly if one folded value is negative and the other is not. Everything but small multiplication returns values with f >= -C, for which encodings are equal exactly if the values are congruent and the signs of f agree; a right small multiple can have the encoding of a different residue. Bitwise and and or act on the two's complement digits of these numbers.", "quantifier": "all nine fields, every value with reduced lower words and any i64 top word, every pair of such values, every buffer, every bit index, both build profiles", "why_tests_cant": "The folded value is negative for at most C of about 2^220 to 2^521 values per carry, so random tests never meet it; the claim is about every pair of values.", "anchors": ["src/normalize.rs: Normalize, NormalizeEq", "src/field/mod_e255_19.rs: normalize, pack_normalized, normalize_self_eq, bit_normalized, LowerHex::fmt", "src/field/mod_e383_187.rs: pack_normalized", "src/field/prime_field.rs: PrimeField"]}
{"id": "C62", "title": "Random elements are as random as the draws", "statement": "If the generator's draws lie in the ranges that rand asks for, rand returns exactly these draws, one per word, takes no other draws, and different draws give different residues. So independent uniform draws give an element that is uniform over those listed in C54, and successive elements depend on disjoint draws. The number of residues that can be returned is the product of the words of the modulus, which leaves out at least one residue in 2^t, t being the width of the top word (22 to 48 bits).", "quantifier": "all nine fields, every sequence of draws, every pair of sequences, both build profiles", "why_tests_cant": "Uniformity is a statement about all sequences of draws; a test sees a handful.", "anchors": ["src/field/mod_e255_19.rs: Rand::rand", "src/field/mod_e521_1.rs: Rand::rand"]}
{"id": "C63", "title": "Normalising twice is always enough", "statement": "Calling normalize() twice always gives the reduced words of a residue: that of the argument unless the folded value is below -C, which only small multiplication can return. Hence, on every value returned by addition, subtraction, multiplication, squaring, negation, small addition, normalisation or decoding, calling normalize() once before packing, comparing, reading bits or printing makes these observers right.", "quantifier": "all nine fields, every value with reduced lower words and any i64 top word; every pair of produced values for equality; every bit index; both build profiles", "why_tests_cant": "The values on which one call is not enough are at most C per carry out of 2^220 or more.", "anchors": ["src/normalize.rs: Normalize::normalize", "src/field/mod_e255_19.rs: normalize, packed, bit, normalize_eq"]}
{"id": "C64", "title": "Inverses, quotients, symbols and roots obey the laws of a field", "statement": "Observed through encodings and without normalising in between: inverting twice gives the value back, zero included; the inverse of a product is the product of the inverses; dividing is multiplying by the inverse; dividing twice is dividing by the product; division distributes over sums and fractions are added by cross-multiplication; the Legendre symbol is multiplicative, is one on the square of every value that is not zero, and is the same for a value and its inverse; the root of a square is the value that was squared or its opposite.", "quantifier": "all values the library produces in seven fields and all its non-negative values in e222_117 (e251_9, where inversion can be wrong, is C21's and C55's subject); every operator form; both build profiles", "why_tests_cant": "Each law relates several calls on two to four field elements of 221 to 521 bits, in signed and unreduced representations.", "anchors": ["src/field/mod_e255_19.rs: invert, inverted, DivAssign, legendre, sqrt, MulAssign, AddAssign, packed (likewise the other fields)"]}
{"id": "C65", "title": "Multiplication and squaring take operands far above the modulus, up to a known size", "statement": "Each field has a head room r (7, 12, 4, 13, 5, 4, 9, 6 and 13 bits in the order of the modules): values with reduced lower words and a top word of up to 2^r times its nominal size, of either sign, can be multiplied and squared without normalizing; the calls return in both build profiles, the result has the shape of a produced value, and it is right under the same conditions as for produced values. In the seven fields without such conditions they can also be inverted, divided, tested and rooted. In particular right small multiples by integers of at most 2^r in size can be multiplied together at once. One bit more is too much: in every field some small multiple of a canonical value within the next range has a wrong square and a wrong product with itself, and the build with overflow checks panics or, in e383_187 and e521_1, returns the wrong value as well.", "quantifier": "all operands with top words within the head room, all multipliers of at most 2^r in size, all nine fields, every operator form, both build profiles", "why_tests_cant": "The operands range over every combination of 4 to 10 words of up to 60 bits, and the sums of products that overflow depend on all of them.", "anchors": ["src/field/mod_e255_19.rs: MulAssign, Mul, square, squared, invert, inverted, small_mul, small_mul_assign (likewise the other fields)"]}
{"id": "C66", "title": "A computation can be stored and resumed at any point", "statement": "A program over field values may be stopped any number of times; at each stop all its variables are written out as encodings, discarded and decoded again, and the program goes on, perhaps in the other build profile. If every operation is used where it is right (the discipline of C26) and every variable at a stop is one that can be normalised, nothing panics, everything observed before and after the stops is what the uninterrupted program observes, and the variables end congruent to those of the uninterrupted run. A canonical value comes back word for word. In general a value comes back congruent exactly if its folded value is not negative, or, in e383_187, if it is below minus C; a disciplined program that is stopped while it holds a negative difference can observe something else.", "quantifier": "all programs of any length, all sets of stopping points, all assignments of build profiles to the parts, all nine fields; for single values all representations", "why_tests_cant": "The stopping points, the programs and the representations held at a stop are unbounded in number; a reloaded variable has another representation than the one it replaces, and every later operation must agree on both.", "anchors": ["src/field/mod_e255_19.rs: packed, unpacked, pack, unpack, normalize (likewise the other fields)"]}
{"id": "C67", "title": "Looking at values does not change a computation", "statement": "Normalizing, encoding, comparing, reading a bit of or printing values, although most of these rewrite the representation of what they look at, can be inserted any number of times anywhere into a program: if every operation of the program is used where it is right (the discipline of C26) and the values looked at can be normalised, the program with the insertions neither panics nor leaves the discipline, makes the same other observations in the same order, and ends with variables congruent to those of the program without them.", "quantifier": "all programs of any length, all insertions of observers at all points, all nine fields, both build profiles", "why_tests_cant": "Programs and insertion points are unbounded; after an observation every later operation runs on other words than before and must give an equivalent result.", "anchors": ["src/field/mod_e255_19.rs: normalize, packed, normalize_eq, bit, LowerHex, UpperHex (likewise the other fields)"]}
{"id": "C68", "title": "Congruent representations cannot be told apart", "statement": "Run the same program from two states whose variables are pairwise congruent modulo the prime but differ in representation. If in both states every operation is used where it is right (the discipline of C26, each with its own shapes), nothing panics, both runs add exactly the same observations (encodings, comparisons, bits, text), and the variables stay pairwise congruent. Without the discipline this is false: in every field two congruent values of the kind sums, differences and products return have different encodings.", "quantifier": "all programs of any length, all pairs of states of any number of variables, all nine fields, both build profiles", "why_tests_cant": "The pairs of representations of one residue and the programs run on them are unbounded.", "anchors": ["src/field/mod_e255_19.rs: all methods and operators, observed through packed, normalize_eq, bit, LowerHex, UpperHex (likewise the other fields)"]}
