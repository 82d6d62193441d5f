# Formal model of safecurves-rust: design

The code is read as text only; nothing in `/repo` was built, run or changed.

## 1. What is modelled, and how

| part of /repo | model | how |
|---|---|---|
| `src/field/mod_e*.rs` (nine files), all non-test functions, operator impls and constants | `Src_e*.v` | translated statement by statement by `tools/rust2coq.py` into the abstract syntax of `Lang.v`; every function cites file and lines, every statement its line |
| `src/curve/edwards.rs`, all functions | `Src_edwards.v` | same; the field operations are calls into an open function table |
| `src/curve/{e_222,curve1174,e_382,curve41417,e_521}.rs` | `Src_curves.v` | same (`d_val` and the choice of field) |
| `src/field/prime_field.rs`, `src/pack.rs`, `src/normalize.rs`, `src/curve/{point,group}.rs`, `src/lib.rs` | – | trait declarations and module lists; there is no code in them, the impls are in the files above |
| `src/curve/m_221.rs` | – | entirely commented out in the source |

`Lang.v` (MiniRust) is the reading of Rust: a deep embedding with a total evaluator
`call : mode -> table -> fuel -> name -> args -> result`.  It has i64 arithmetic that
panics (debug build) or wraps (release build), shifts, casts, bounds-checked arrays
and byte slices, `&mut` write-back, counted loops, calls through a table, draws from
a random stream, and text output.  `Panic` is a value of the result type; `Stuck`
(ill-formed program) is proved not to occur.

Simplifications, each also noted where it is made:

* references, lifetimes, `clone` and the tuple-struct wrapper are erased: all types are
  `Copy` and the borrow checker excludes aliasing;
* `EdwardsExtended` values are four variables; the private macro-like `carry_out` stays a function;
* `rng.gen_range(lo, hi)` returns some value of `[lo, hi)` determined by the next
  element of an arbitrary stream (`rand` is not modelled);
* `{:x}` and `{:X}` of integers are `Lang.hex_fmt` (`core::fmt` is not modelled), and
  formatter errors are not modelled;
* the optimiser, the instruction set and memory safety are not modelled (the crate has no `unsafe`);
* the evaluator's call depth is bounded by 16; `Forms.v` proves that a completed run does not depend on the bound.

Not modelled: test modules, benchmarks, `Cargo.toml`, documentation.

## 2. Layers

| files | content |
|---|---|
| `Fields`, `EverySpec`, `EdwardsSpec`, `CurveSpec`, `GroupSpec`, `MontSpec`, `TextSpec`, `TraceSpec`, `ShapeSpec`, `Machine` | **the specifications**: what words denote, canonical words, encodings, the affine Edwards law, the field contract `lawful`, programs over the library, published constants, observations.  None of them mentions how the code works |
| `Quick` | the evaluator of `Lang` with its variables in a tree, proved equal to it; the checks that run the source on given words use it because the kernel evaluates it faster |
| `Poly`, `Kernel`, `Kfacts` | a verified analyser for straight-line word code: intervals for overflow, polynomials over floor-atoms for values.  `kernel_sound` is proved once for all inputs |
| `Kmore`, `Exact`, `Room`, `RoomEnd` | a second checker that also relates the values of a function's own variables, so that what a method drops can be named; exactly when `*` is right in the two fields where it can be wrong, and how large the top words may be in each field |
| `SmallMul`, `SmallAny`, `Doubling` | a third checker for the columns below the top one, and the top column by hand in both build modes: exactly when small multiplication is right, for every i32; always for powers of two that fit |
| `Ops`, `Words`, `Codec`, `Normalize`, `Methods`, `Surface`, `Forms`, `Format`, `DebugFmt`, `Power`, `Safe` | facts about each method, in all nine fields |
| `NumTheory`, `Primality`, `Primes` | Fermat, Euler, Pocklington, n+1 tests; certificates for the nine moduli |
| `Fast`, `Orders`, `GroupOrder` | modular arithmetic on 63-bit machine integers, and with it certificates for the ten group orders and the orders of the base points |
| `Mont`, `MontOrder` | chord-and-tangent addition on the Montgomery curves: its passage to an Edwards curve, and the orders of the five Montgomery base points |
| `Arith`, `Encoding`, `Observe`, `Roots`, `Chain251`, `Symbols`, `Signed`, `Domain`, `History`, `Ideal`, `Laws`, `Refute` | the field properties in final form; witnesses against the false ones |
| `Zp`, `EdwardsAlg`, `GroupLaw`, `Edwards`, `Lawful`, `Ladder`, `Group` | algebra of Edwards curves; the curve code run symbolically over any lawful field |
| `Curves`, `CurveRefute`, `Guarded`, `Deviate` | the curve code over the shipped fields; `Guarded` gives conditions on the two points under which sums and doubles are right, `Deviate` the exact ones |
| `CheckedSpec`, `Checked` | runs of the curve code that stop at a wrong field result, and what they compute |
| `StepsSpec`, `Steps` | scalar multiplication on the shipped curves as steps of the library's own addition and doubling |
| `TidySpec`, `Tidy` | the curve code with the result of every field operation normalised: lawful on all five curves, hence right |
| `EverySpec`, `Every` | normalising, encoding, comparing, reading bits and printing on every value, also where the folded value is negative |
| `FieldLaws` | laws between inversion, division, symbols and roots |
| `Trace`, `LeakSpec`, `Leak` | taint analysis of the instrumented evaluator; what an observer sees of whole programs |
| `Stmts`, `Cuts`, `Modes`, `Shape` | debug against release; types and ranges of all values in release builds |
| `Resume`, `Store`, `WatchSpec`, `Watch` | programs that are stopped, stored as encodings and resumed; programs with observers inserted |
| `Prop_*` | **the property theorems**: statement, `exact`, `Print Assumptions`, and an `Example` that a non-trivial case meets the hypotheses |

## 3. Per property

| id | modelled and proved how |
|---|---|
| C01 C02 C03 C06 | the analyser run on each field's text: no overflow, result words in the produced range, value congruent to the ring operation.  C02 is false in two fields for signed operands; `Exact` gives the exact condition there |
| C04 C05 | false as stated; witness by evaluation, exact condition or positive domain by the analyser |
| C07 | false as stated; witnesses by evaluation.  `SmallMul` and `SmallAny` give the exact condition for every value of any top word and every i32 multiplier, with what each build returns when it fails |
| C08 C09 | arithmetic of `x - p * carry(x + c)`; C09 gives the exact set of values normalised correctly |
| C10–C14 | the analyser with an exact (not modular) specification for the byte shuffles; lengths by case analysis |
| C15–C18 C41 C42 | digits are determined by the value; bits of a digit vector; masks |
| C19 | symbolic execution of every operator impl on arbitrary arguments |
| C20 | evaluation; primality by certificates |
| C21–C24 | symbolic exponent tracking through the addition chains; Fermat and Euler.  In `mod_e251_9` a product can be slightly above 2^252 and two such values overflow its multiplication; `Chain251` shows that only small residues can do this, so that the powers are right unless two values with residues within 2^228 of zero meet in one product, and gives a counterexample for inversion.  `Symbols` covers `sqrt` of non-squares (it returns, without any sign of failure, a root of −x, a root of −2x, or 0).  `Signed` covers negative arguments in the two fields whose products are wrong when negative: one product decides, and the rest of the chain cannot undo it |
| C25–C27 | induction over programs and expression trees of any size; C26 without normalising follows a shape for each variable (`Machine.shape`), which says what is known of its top word.  The ideal execution inverts, takes symbols and roots by powers of integers mod p; C26_inverse, C26_symbol and C26_root say that these are what they should be, independently of the code |
| C28–C30 C43 | execution of the model with an arbitrary random stream; digit printing by induction |
| C31–C34 | the Edwards code over an arbitrary lawful field; ring identities; completeness for non-square d |
| C35–C37 | false as stated; witnesses by evaluation, positive parts proved separately.  C37: the loop invariant carries the residues of both ladder points, so the result is given exactly by `quad_ladder` of `EdwardsSpec.v`; `Ladder.v` relates it to multiples in the group |
| C38 | false as stated; witnesses by evaluation.  Positive part: sums and doubles are right whenever the products they subtract have no pending carry (`clean_sum`, `clean_double` in `CurveSpec.v`), run step by step over the real field code |
| C39 C45 | evaluation against the published values; -d is a square and p is 3 modulo 4, so d is none (Euler's criterion) |
| C40 | instrumented evaluator; a taint checker is proved sound and run on every function; induction over programs of any length on fields and on points (`LeakSpec`, `Leak`), whose observer sees the events of every call in order |
| C44 | associativity by a polynomial identity modulo the curve equations; induction over addition chains |
| C46 | Pocklington and n+1 certificates for the orders; scalar multiplication of the base points in projective coordinates; a prime that kills a non-neutral point is its order. Montgomery curves: u = sx/y, v = (x-1)/(x+1) with s^2 = A+2 carries chord-and-tangent sums to sums on the Edwards curve with d = (A-2)/(A+2), one-to-one, and there the order is computed the same way; the group laws (total, single-valued, associative, commutative, neutral, opposites) come back along the same map |
| C47 | induction over the evaluator: the two profiles differ in overflow, index subtraction and shift amounts only, where debug panics |
| C48 | an abstract interpreter of shapes and ranges (`Shape.v`), proved sound and run on every function against its Rust signature (`ShapeSpec.v`); induction over programs |
| C49–C56 | exactly what the operations compute that miss C02, C04, C05, C07, C21–C24, C29, C33–C37 and C41: the same machinery, stated as equivalences (`Domain`); C53 evaluates `normalize` on the mask, which does not have the shape of a field value, in each field |
| C57 | the same steps as C38 over the real field code, keeping the error 2C·carry of every subtraction; the result is right iff the errors cancel, by arithmetic modulo the prime (`Deviate`) |
| C58 | the curve code run over field code in which a wrong result is a panic (`CheckedSpec.checked`); such a run is also a run over field code with the wrong results replaced by right ones, which is lawful (C31–C33 and C56 apply), and over the library's own code (`Checked`) |
| C59 | induction over the iterations of the ladder body on the real field code; the masked selection returns one of its two operands word for word (`Steps`) |
| C60 | the field code followed by `normalize` (`TidySpec.tidied`) satisfies `lawful` on reduced values (C02–C08, and C52 for doubling in `mod_e521_1`), so C31, C32, C34, C37 and C44 apply to the real field code of all five curves (`Tidy`) |
| C61 | `normalize` run on any top word gives `settled`; `pack_normalized` is checked symbolically modulo 2^k on any top word, and the observers follow by their bodies (`Every`).  The encoding of a right small multiple can be that of another residue: refuted for eight fields, with x = 2^(bits-1) and k = -4 |
| C62 | the loop of `rand` run on draws in range returns them; canonical words are determined by the residue (`Every`).  Probabilities are not modelled: the claim is the bijection between draws and elements |
| C63 | the settled value lies between -p and p, so its folding is not negative and C08 applies to the second call (`Every`) |
| C64 | each call is the power or product that `Power` computes; Fermat, Euler and the laws of powers do the rest (`FieldLaws`) |
| C65 | `Fields.room` is the largest power of two of head room that the analyser accepts in each field; `wide` values are within it, and C02, C03, C21–C27 and C64 are proved for them.  The two exceptional fields are as in C49 (`Exact`, `Room`).  For each field a value in the next range on which the source fails, by evaluation (`RoomEnd`) |
| C66 | stopping, encoding, decoding and going on are written out in `Resume`; a reloaded variable is canonical and congruent, and the discipline of `Machine` is monotone in what is known about a variable, so the rest of the program still keeps to it and follows the same ideal execution (induction over the stops, `Store`).  Exactly when a value survives follows from `Every` |
| C67 | a program with marked extra observers (`WatchSpec`); observers leave the ideal variables alone and make shapes better, and the discipline is monotone, so both programs follow the same ideal execution up to the marked observations (`Watch`) |
| C68 | both runs follow the ideal execution from the same integers mod p, and the ideal execution only appends to what was seen before (`Watch`) |

## 4. Where the code and the property disagree

These are facts about the modelled code, each a theorem with suffix `_refuted` and a witness
reachable through the public API.

* **C02** `*` in `mod_e222_117` and `mod_e251_9` is wrong for some negative operands, and in
  `mod_e251_9` for products of 2^504 or more.
* **C04** `-` adds the subtrahend's pending carry instead of subtracting it.
* **C05** unary minus returns a value congruent to its argument.
* **C07 C25** `small_mul` counts the pending carry twice, is wrong for large multipliers in
  five fields and wrong in `mod_e521_1`; with large multipliers it overflows (panic in a
  debug build), and squaring such a product can overflow too.
* **C08 C61** `normalize` leaves some negative values unreduced, and changes the residue of some results of `small_mul`:
  for these `packed()` returns the encoding of another residue.
* **C21 C22** in `mod_e251_9` `inverted()` is wrong for some sums of two decoded values (first product
  inside the chain reaches 2^504), hence also `/`.
* **C21–C24** in `mod_e222_117` `inverted()`, `/`, `legendre()` and `sqrt()` are wrong for negative values (results of
  subtraction), and `inverted()` and `legendre()` are wrong for −1 in `mod_e251_9`: `legendre()` then returns neither 1, −1 nor 0.
* **C29** `rand` cannot return every residue.
* **C41** `normalize_bitand` with a mask does not normalise what it should.
* **C33** `triple` computes `aa - xb` where `aa + xb` is needed.
* **C35 C36** `zero()` and `init` set T = 1, so zero is not neutral and init is not a valid point.
* **C37** the scalar multiplication ladder selects the complemented bit and starts at that zero.
* **C38** on all five shipped curves addition and doubling return wrong points (through C04 and C07).
* **C24** nothing reports that the argument of `sqrt` has no root; with p ≡ 5 mod 8 a non-square can be sent to 0.
* **C40** the length of the text `{:?}` writes depends on the value (everything else is independent of it).
* **C45** the comment on `E222_ORDER` is M-221's order (the constant itself is right); the
  comment on `M511_BASE_Y` says x-coordinate.

## 5. Trusted base

* Coq 8.16.1's kernel, including `vm_compute` casts (`coqchk` re-evaluates them without the VM).
* The reading of Rust in `Lang.v` and the syntactic translation `tools/rust2coq.py`
  (`tools/rustparse.py` parses; anything outside the subset is an error).  The generated
  files are committed and can be compared with the source line by line.
  `tools/interp.py` runs the translation in Python; it only served to find witnesses.
  `tools/runtests.py` runs the unit tests written in the source on that interpreter, in both
  modes: all their assertions (about 1800 to 2200 per field and mode) hold of the translation.
* The specification files of section 2.
* Certificates (`tools/primecert.py`, `tools/ordercert.py`) are **not** trusted.

### Axioms

`Print Assumptions` reports *Closed under the global context* for every property theorem of
C01–C45 and C47–C68.

The theorems of C46 (`Prop_order.v`), and only those, depend on the standard library's
primitive 63-bit integers, Coq.Numbers.Cyclic.Int63.  `Print Assumptions` lists for each of
them the same set: the primitives
`PrimInt63.{int, add, sub, mulc, addc, addcarryc, subc, subcarryc, land, lor, lsl, lsr, eqb, ltb, leb}`
and the axioms
`Uint63.{add_spec, sub_spec, mulc_spec, addc_def_spec, addcarryc_def_spec, subc_def_spec,
subcarryc_def_spec, lor_spec, lsl_spec, lsr_spec, eqb_correct, eqb_refl, ltb_spec, leb_spec, of_to_Z}`.

`coqchk -o` additionally names every axiom of every library file that is loaded, used or not:
the other operations and specifications of `PrimInt63` and `Uint63`, and
`Coq.ssr.ssrunder.Under_rel.*`, members of a module that the standard library seals.  No
theorem here depends on these.  The development declares no axiom of its own.

## 6. Testing the theorems

`seeded/LOG.jsonl` records edits of the Rust source (translated again) or of the model, and
which theorems stopped proving.

How to read it:

* A listed failure means that the proof as written no longer goes through.  By itself it does
  not show that the statement became false: scripts follow the shape of definitions, and lemmas
  such as `*_body` compare the text of a function, so a harmless edit can fail too.
* Where the falsity of the edited statement was checked, or argued, the `note` says so.
* For random edits (`rand*`) only the first failing proof was found.  The theorems listed are
  those that depend on it; they were not tried one by one.  Edits that the translator rejects
  are not logged.
* The third random campaign (`rand3`) was stopped after 63 of 80 edits: 42 failed a proof, 21 were
  rejected by the translator.
* `leak-2` and `leak-7` are not wrong programs.
