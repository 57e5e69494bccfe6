# Formal model of BeamDesign (skane88/BeamDesign) in Rocq 8.16.1

## 1. Approach

* **Shallow embedding.** Every modelled Python function becomes a total Gallina
  function, branch by branch, in `rocq/theories/`. Each definition cites file and
  lines of `/repo` and lists what it simplifies.
* **Exceptions are values**: `res A := Ok a | Err e` (`Base.v`), `e` naming the
  Python exception class. `ZeroDivisionError`, `TypeError`, `AttributeError`,
  a negative number raised to `0.5` (Python returns a complex number: `EComplex`)
  and running out of fuel (`Diverges`) are outcomes of the model and never hidden by
  a default value.
* **Numbers.** The load/beam/solver/code-check code is written once over an
  operations record `Num T` (`Num.v`, a type class - no functor) with two instances:
  * `R` (real numbers, `RNum.v`): theorems "in exact arithmetic";
  * `pynum` (`PyNum.v`): a Python number is `PInt z` (an unbounded int) or `PFlt f`, `f` an
    IEEE binary64 from the standard library's `SpecFloat` (round-to-nearest-even, NaN,
    infinities, signed zeros). It is computable and axiom free, so concrete executions
    (the repo's own test values, counter-examples) are checked by `vm_compute`.

  Order-only (structural) theorems are proved once for every `Num` whose comparisons
  form a total preorder on an "ok" subset of numbers (`NumOrd`, `OrdFacts.v`) and
  instantiated at both (for `pynum`, ok = not NaN).
  `FloatRound.v` and `FloatOps.v` prove that `SpecFloat`'s operations round to the nearest
  double (so they are monotone and exact where the result is a double); the theorems of
  `P_Floats.v` are about all finite doubles and rest on that.
  The AS4100 design formulas (S5, S6, S7) are modelled over `R` (`PyReal.v`).
* **External calls.** numpy's unstable `argsort` and `numpy.roots` are function
  parameters ("oracles"); the theorems hold for *every* oracle obeying the documented
  behaviour, which is spelled out as a hypothesis (`any_argsort`, `correct_roots`) and
  shown satisfiable by an example.
* **State.** Four models carry a state: `S6Cache.v` (the `lru_cache`s of S6.py and the
  dictionaries they hand out), `S6Threads.v` (the same functions cut into steps, called by
  several threads whose steps interleave, with calls that can be broken off), `ArrayHeap.v` (numpy arrays and views behind LoadCase,
  Beam and AS4100) and `Objects.v` (the attributes of Material, Section, Element, Beam and
  AS4100 objects). Their theorems quantify over all histories of calls and client
  assignments and are proved by induction with an invariant; each operation is also
  proved to refine the stateless model.
* **Specifications** live in `*Spec*` files and in the property files, phrased without the
  model's helpers.
* **Property theorems** live in `P_*.v` files: each is closed by `exact lemma`,
  followed by `Print Assumptions`, and accompanied by an `Example` showing a concrete,
  non-trivial case meeting the hypotheses.
* Where a property is **false** of the code as it stands, the theorem is
  `..._refuted` (a concrete witness on the faithful model) and what does hold is proved
  as `..._partial`. `properties.jsonl` keeps the full statement.

## 2. What is modelled

| code | model | proofs | theorems |
|---|---|---|---|
| `const.py`, `utility/exceptions.py` | `Base.v`, `Exceptions.v` | | |
| numpy functions used | `Numpy.v` | | |
| `loadcase.py`, `utility/interp.py` | `LoadCase.v` | `LoadFacts`, `LoadSpec`, `LoadProofs` | `P_LoadCase.v` |
| `element.py`, `beam.py` | `Beam.v` | `BeamSpec`, `BeamFacts`, `BeamPositions`, `BeamProofs`, `BeamLoads`, `TableCut`, `BeamCut`, `BeamMisc`, `BeamFloat`, `BeamCases` | `P_Beam.v` |
| sizes of the answers of `loadcase.py`, `beam.py` | (`LoadCase.v`, `Beam.v`) | `Sizes` | `P_Sizes.v` |
| `materials/material.py`, `material.toml`, `sections/*.py`, class part of `as4100_sect_props.py` | `Material.v` | `MaterialFacts` | `P_Material.v` |
| function part of `as4100_sect_props.py` | `SectProps.v` | `SectFacts` | `P_Sect.v` |
| `codecheck.py`, `as4100.py`, `as4100.toml` | `AS4100.v` | `AS4100Spec`, `AS4100Facts`, `AS4100Util`, `AS4100Scale`, `IntFloat`, `AS4100Int`, `AS4100Cases` | `P_AS4100.v` |
| `utility/solvers.py` | `Solvers.v` | `SolverSpec`, `SolverFacts`, `SolverProofs` | `P_Solvers.v` |
| `S7.py` | `S7.v` | `S7Facts` | `P_S7.v` |
| `S5.py`, `S5_Shear.py` | `S5.v` | `S5Facts`, `FormulaFacts`, `UnitFacts` | `P_S5.v`, `P_Formulas.v` |
| `S6.py`, `utility/symmetry.py` | `Symmetry.v`, `S6.v` | `S6Facts`, `S6Torsion`, `S6Unsym`, `S6Length`, `S6Cases`, `S6Value`, `UnsymLength`, `S6Slack`, `YieldCurve`, `YieldCells`, `YieldFacts`, `UnitFacts`, `FormulaCases` | `P_S6.v`, `P_Formulas.v` |
| caching in `S6.py` | `S6Cache.v` | `S6CacheFacts`, `S6CacheProofs`, `S6CacheNc`, `S6CacheSession`, `S6CacheCases` | `P_S6Cache.v` |
| caching in `S6.py` on ints and doubles | `NumCache.v` | `NumCacheFacts`, `NumCacheDoubles` | `P_NumCache.v` |
| sections rated without their symmetry | (`S6.v`, `Symmetry.v`) | `SymDefault` | `P_SymDefault.v` |
| printed forms in `material.py`, `circle.py`, `element.py`, `beam.py`, `loadcase.py`, `symmetry.py` | `Repr.v` (model and facts) | | `P_Repr.v` |
| threads and interrupted calls in `S6.py` | `S6Threads.v` | `S6ThreadsFacts`, `S6ThreadsProofs`, `S6ThreadsPool`, `S6ThreadsResults` | `P_Threads.v` |
| arrays and views in `loadcase.py`, `beam.py`, `codecheck.py` | `ArrayHeap.v` | `ArrayFacts`, `ArrayBeam`, `ArraySpec`, `ArrayProofs`, `ArrayCases` | `P_Arrays.v` |
| attributes of all objects | `Objects.v` | `ObjectFacts`, `ObjectCases`, `CtorFacts` | `P_Objects.v` |
| joining, rescaling, mirroring beams | (`Beam.v`) | `TransformSpec`, `BeamJoin`, `BeamUnits`, `BeamMirror`, `TransformCases` | `P_Transform.v` |
| extremes between positions, utilisation of one beam described differently | (`Beam.v`, `AS4100.v`) | `PeakSpec`, `Peak`, `BeamCutAt`, `SameUtil`, `PeakCases` | `P_Peak.v` |
| tables of answers, interchangeable tables, load combinations | (`LoadCase.v`, `Beam.v`, `AS4100.v`) | `TabulateSpec`, `Tabulate`, `Combine`, `TabulateCases` | `P_Tabulate.v` |
| heavier beams and weaker bars | (`LoadCase.v`, `Beam.v`, `AS4100.v`) | `HeavierSpec`, `Heavier`, `HeavierCases` | `P_Heavier.v` |
| load tables of doubles | (`LoadCase.v`, `Numpy.v` over `PNum`) | `FloatTableSpec`, `FloatTable`, `FloatLin`, `TabulateAny`, `FloatTab`, `FloatTableCases` | `P_FloatTable.v` |
| bisection on doubles | (`Solvers.v` over `PNum`) | `FloatBisectSpec`, `FloatBisect`, `FloatBisectCases` | `P_FloatBisect.v` |
| joint and separate checks | (`AS4100.v`) | `Parts`, `PartsCases` | `P_Parts.v` |
| which exceptions escape; hierarchy of `utility/exceptions.py` | `Exceptions.v` | `ErrorSpec`, `Errors`, `ErrorsSecant`, `ErrorsCheck`, `ErrorsCases` | `P_Errors.v` |
| designing with several formulas together | (`S5.v`, `S6.v`, `S7.v`, `SectProps.v`) | `DesignSpec`, `DesignFacts` | `P_Design.v` |
| `Material.__eq__`; what loads and capacities depend on | (`Material.v`, `Beam.v`, `AS4100.v`) | `MatSpec`, `Frame`, `MatEq`, `EqualCases` | `P_Equal.v` |
| capacity and utilisation on doubles | (`AS4100.v`, `Solvers.v`) | `FloatUtilSpec`, `FloatUtil`, `FloatCheck`, `PiBound`, `FloatCapacity`, `FloatDesign`, `FloatDesignCases` | `P_FloatUtil.v` |
| accuracy of ends, positions and reported loads on doubles, check against the stored loads | (`Beam.v`, `LoadCase.v`, `AS4100.v`) | `FloatPlaceSpec`, `FloatPlaces`, `FloatLoads`, `FloatEnd`, `FloatPlaceCases` | `P_FloatPlaces.v` |
| stored loads among those reported without positions, on doubles | (`Beam.v`, `LoadCase.v`, `AS4100.v`) | `FloatStoredSpec`, `FloatStored`, `FloatStoredCases` | `P_FloatStored.v` |
| secant on doubles: residual, outcomes, limits | (`Solvers.v`) | `FloatSecantSpec`, `FloatSecant`, `FloatSecantCases` | `P_FloatSecant.v` |
| secant on convex functions | (`Solvers.v`) | `SecantConvex` | `P_SecantConvex.v` |
| result lists and filters of `tension_utilisation` | `AS4100Lit.v` | `AS4100Lit` | `P_AS4100Lit.v` |
| `S7.py`, `S5.py`, `S5_Shear.py`, flexural and torsional part of `S6.py` over any kind of number | `NumFormulas.v` | `NumFormulasFacts`, `FloatFormulaSpec`, `FloatRoot`, `FloatCalc`, `FloatFormulas`, `FloatNear`, `FloatAlphaC`, `FloatStocky`, `FloatPow`, `FloatFormulaFinal` | `P_FloatFormulas.v`, `P_FloatLinks.v` (`NumLinks`) |
| rest of `S6.py` (coupled modes, `s6_1_1_Nc`) over any kind of number | `NumS6.v` | `NumS6Facts`, `FloatS6Spec`, `FloatTorsion`, `FloatPow6`, `FloatColumn`, `FloatNc`, `FloatNcCases` | `P_FloatColumn.v` |
| plate and CHS functions of `as4100_sect_props.py` over any kind of number | `NumSect.v` | `NumSectFacts`, `FloatSect`, `FloatOrderSpec`, `FloatOrder`, `FloatMono`, `FloatCaps`, `FloatOrderCases` | `P_FloatOrder.v` |
| beams, interpolation and bisection on doubles | (`Beam.v`, `Solvers.v`) | `FloatSpec`, `FloatValSpec`, `FloatRound`, `FloatOps`, `FloatFacts`, `FloatBeam`, `FloatLocs`, `FloatQueries`, `FloatSolvers`, `FloatInterp`, `FloatError`, `FloatCases` | `P_Floats.v` |
| the tension check in other units | (`AS4100.v`, `Material.v`, `Beam.v`) | `RestateSpec`, `Restate` | `P_Restate.v` |
| counts and listings of `loadcase.py`, `beam.py` | `Listing.v` | `ListingFacts` | `P_Listing.v` |

`Sanity.v`, `SuiteTests.v` and `TestValues.v` run the repo's own tests through the model on
Python numbers: `SuiteTests.v` the tests of load cases, interpolation, elements, beams,
sections, materials and the AS4100 object, `TestValues.v` all 2528 value rows of the tests
of sections 5, 6 and 7 with the tests' own tolerances. They check the model's fidelity;
no property rests on them.

Simplifications (each is noted again at the definition):

* Tables are lists of rows; a numpy table of ints keeps its int dtype (values are
  truncated on assignment where the code assigns). Arrays of 3 or more dimensions, ragged
  or non-numeric input are not modelled.
* TOML parsing: the parsed dictionary is the model's input; the shipped `material.toml`
  and `as4100.toml` are transcribed as constants.
* `S6Cache.v`: cache keys are compared as numbers (as Python does); a call that produces a
  complex number is not cached by the model; the order of keyword arguments, which is part
  of the key of an `lru_cache`, is a tag of the call; the cache's size bound (128) and
  eviction are modelled.
* `NumCache.v`: a cached dictionary is represented by the entries computed from the
  arguments; `**` is a parameter; a key is the order of its keywords (a tag) and its numbers,
  compared by identity first and then by `==`.
* `S6Threads.v`: one step is one access to a cache or a dictionary, which the interpreter
  lock makes indivisible; the memory of an interpreter without that lock is not modelled.
  Threads are modelled for `S6.py` only, the one module with state of its own.
* `ArrayHeap.v`: only whole arrays and column views occur (the ones the code makes); a
  client's item assignment stores the value given (no conversion to the array's dtype).
* `Objects.v`: objects are numbered and exist from the start; clients put Elements into lists
  of elements and Materials into `section.material`, and leave underscore attributes and the
  wrapper list alone.
* `S5.v`, `S6.v`, `S7.v` are over the reals. `NumFormulas.v` and `NumS6.v` have the
  formulas without caches over any kind of number; `NumFormulasFacts.v` and `NumS6Facts.v` prove that on
  the reals, with exact powers, they are those models. On doubles `x ** y` is a parameter: C119-C121,
  C123, C124 assume (`good_pow`) that it does not fail and errs by at most 2^-51 for exponents 0.5, 2, 3
  in a wide range; `FloatPow.v` has a function that meets this. C125-C127 assume more (`full_pow`: zero
  and negative bases, powers of 0.658); `FloatPow6.v` has a function that meets this. `SectProps.v` is over the reals;
  `NumSect.v` has its plate and CHS formulas over any kind of number (C128).

Not modelled: the command line / GUI stubs, docstrings, the texts of numbers and arrays in
printed forms (parameters of `Repr.v`),
file access, hash collisions, memory exhaustion, and identity/aliasing beyond the
four stateful models.

## 3. How the properties are proved

Induction/invariants for lists and histories; real analysis (`lra`/`nra`, monotonicity,
intermediate values) for formulas; `vm_compute` only for concrete witnesses and sanity
examples.

| ids | method |
|---|---|
| C01 | the constructor characterised by a declarative predicate, `<->` |
| C02-C05 | relational interpolation spec; split/merge with two sorts equals the per-position spec, for every admissible unstable sort; corollaries |
| C06, C07 | dedup/sort lemmas, `linspace` strictly increasing |
| C08 | case analysis over all strings and integers |
| C09-C11 | algebra on the interpolation spec |
| C12 | refuted (clamps) + partial |
| C13-C19 | induction over element lists with the running end position |
| C20 | refuted by execution + partial for tables it works for |
| C21, C22, C25 | refinement to the per-triple spec; cutting lemma by linear interpolation algebra |
| C23, C24, C77 | refuted by execution in binary64 / ints; partial = exact-arithmetic theorem and classes of float beams |
| C15-C18, C24, C81 on doubles | monotone rounding: computed ends ascend, quotients stay in [0, 1], midpoints stay in the bracket; C24 characterised exactly |
| C26-C28, C33, C35 | fold/min/max lemmas over result lists |
| C29, C31, C32, C34 | refuted + partial |
| C30 | secant on an affine function, then max over rows |
| C36, C37, C39 | list lemmas, finite tables with symbolic thickness |
| C38 | refuted + partial (within one strength band) |
| C40-C49, C81 | fuel induction with the bracket invariant, IVT for C41, halving for C43; C81 by execution |
| C50-C62, C65, C66, C73, C79 | real algebra |
| C63, C64 | case analysis on flags, min lemmas |
| C67 | symbolic exchange |
| C68 | refuted + partial (`x_o = y_o = 0`; conservative case) |
| C69, C70, C82, C83 | state machine with heap and LRU cache; invariant "cache is sound" over all histories; C70, C82, C83 refuted + partial |
| C71, C72, C74-C76, C78 | case analysis, refutations by execution |
| C80 | monotonicity of each mode (up to 0.21 % below λ_n = 13.5), Vieta and sign analysis of the cubic; refuted for large offsets |
| C84, C85 | heap of arrays; every query refines the stateless model and leaves the stored arrays; C85 refuted + partial |
| C94-C97 | invariant over histories of assignments (wrappers = present sections; steel; equal load cases; agreement on reachable objects); C94-C96 refuted + partial |
| C86-C90 | real algebra, uniqueness of positive roots |
| C91 | monotonicity of every branch (for the flexural mode the sign of a derivative, over 631 intervals checked by computation and a tail), bound at the switch; refuted at the switch |
| C98 | what the constructors accept, `<->` |
| C105 | equivalence from the order axioms; checks built from equal materials have equal strengths |
| C106-C110 | real algebra; C106, C107, C109 refuted + partial |
| C111 | equations between the queries of both beams |
| C112 | each operation rounds monotonically; the sign of the slope fixes the direction, overflow included |
| C113 | refuted by computed values; where differences and quotients are exact, the product is bracketed by 0 and the difference |
| C114 | relative error of each rounding (absolute below 2^-1022 for products and quotients), chained over six operations |
| C115-C117 | relative errors through the two steps the secant method takes; pi enclosed by partial sums of Machin's series; least and greatest of close values are close |
| C118-C121 | relative errors chained through the operations; either side of a `min`, `max` or branch, the chosen value is close to the exact choice |
| C125-C127 | errors relative to the sum of the stresses or to the section capacity; the formula's jump at 1.5 bounds the error there; refuted by a computed value |
| C128 | relative error of each operation, as C118-C121 |
| C131-C134 | errors of sums, quotients and lines chained; completeness by induction over the reported places |
| C135 | equations between the runs in both units, errors included, step by step; the root finder sees the same function |
| C136 | induction over tables and element lists; no step raises KeyError for a listed load case |
| C137 | a row inserted at an interpolated position changes no answer (from the cutting lemmas of C22); induction over the positions |
| C138 | equal locations and element answers, step by step; C103 for the utilisation |
| C139 | the combination commutes with interpolation and with the accumulation loop; the maximum of a sum is at most the sum of maxima |
| C140 | interpolation is monotone in the stored values (same positions, same case split); C103 for the utilisation |
| C141 | the rounded difference of two doubles has the sign of the exact one (monotone rounding; differences of distinct doubles are at least 2^-1074) |
| C142 | error bounds of `i * fl(1/(n-1))`: gaps exceed the errors up to 2^52 points; pigeonhole for the size of the set |
| C143 | over any ordered arithmetic: filters by key of the new table and of the old one agree; sets keep the first of equal numbers, sorted lists are determined by their blocks |
| C144, C145 | the rounded midpoint stays in the bracket and the width shrinks by a factor 1.9 or `isclose` holds (relative tolerance 1e-9 against a half ulp); the product of two values beyond 2^-500 does not underflow, so the sign test is exact |
| C146 | the maximum over concatenated blocks is the maximum of the maxima, as Python's `max` keeps the first of equals and a leading nan; the order is that of the numbers other than nan |
| C147, C148 | each function of the call graph is shown to answer or to refuse with an exception of the class, by composition over `bind` and `mapM`; rows of answers are full, so that stacking, clipping and the root finder get numbers; the class hierarchy is an inductive relation |
| C149, C150 | refuted by computation on a bar with a jump at 0.2; otherwise the error of the round trip of a stored position (C132 both ways) times the steepest slope of the table, carried through C133 and C134 |
| C151, C152 | error analysis of one secant step (four roundings, products up to 1.01e9 times the distance of the points by the loop condition), induction over the loop; refuted by computation where a difference of values overflows |
| C153-C156 | calls as step-by-step programs, equal to the sequential model when alone; rely-guarantee: each thread owns the dictionaries it has not published, everyone else may only do what keeps the invariant of `S6CacheFacts.v`; ownership is ghost state of the proof; C154 refuted by a schedule; C156 by counting steps |
| C157 | one secant step from points above the root stays above it and shrinks the distance by `1 - 1/L`; induction over the loop |
| C158 | the three lists have equal lengths and every key comes from the list it is looked up in: induction over the three loops |
| C159 | a cache invariant relative to a set of calls: every entry is the uncached result of some call with that key; calls of the set with equal keys have equal results (zeros of different sign and small ints vanish in the formulas) |
| C160 | with one offset the cubic is non-negative at the coupled stress and its roots have a larger mean, so the smallest root is real and below; capacities are monotone in the stress |
| C161 | each position lies strictly inside at most one element; the others are ends or stored positions, counted by exchanging sums |
| C162 | texts without commas can be split uniquely; the rest by computation |
| C129 | the order of doubles is total without NaN; products with a positive number keep it |
| C130 | rounding is monotone (`FloatOrder.v`), with infinities case by case |
| C122-C124 | refuted by computed values; absolute errors chained through the cancellations, exact bounds of the intermediate values |
| C99-C101 | induction over element lists; equal answers of the joined / rescaled / mirrored beam; C101 refuted + partial |
| C102-C104 | every value anywhere is enclosed by values at reported positions; capacities compared element by element |
| C92, C93 | homogeneity of every step; refuted for the dimensionally inconsistent cubic |

## 4. Trusted base

1. The Coq 8.16.1 kernel (and `vm_compute`), `coqchk`.
2. Axioms: only those of the standard library, as listed per theorem in section 5: the
   classical reals (`ClassicalDedekindReals.sig_forall_dec`,
   `ClassicalDedekindReals.sig_not_dec`,
   `FunctionalExtensionality.functional_extensionality_dep`) and, where classical
   analysis lemmas are used, `Classical_Prop.classic`. The examples constructing a roots
   oracle (not the theorems) also use `RelationalChoice.relational_choice` and
   `ClassicalUniqueChoice.dependent_unique_choice`.
3. That the Gallina text mirrors the Python text (each definition cites its lines), and
   the stated numpy/Python library behaviour.
4. Wrong-program tests of the theorems are logged in `seeded/LOG.jsonl`.

## 5. Assumptions per theorem

`Print Assumptions` stands under every property theorem. Its outcome:

### No axioms ("Closed under the global context")

* `P_Sizes.v`: `C161_table`, `C161_table_at`; `P_Repr.v`: `C162_element_refuted`, `C162_beam_refuted`, `C162_symmetry_refuted`, `C162_material_refuted`, `C162_element_partial`, `C162_beam_partial`, `C162_beams_told_apart`, `C162_circles_told_apart`, `C162_symmetry_partial`, `C162_double`
* `P_NumCache.v`: `C159_refuted`
* `P_AS4100.v`: `C25_wrapped_sections`, `C26_positive_part_doubles`, `C26_errors`, `C27_accepted`, `C27_refused`, `C29_refuted`, `C31_refuted`, `C32_refuted`, `C32_first_case_positions_partial`, `C34_refuted`, `C34_explicit_positions_partial`, `C34_what_it_is_partial`, `C35_refuted`, `C35_section_only_partial`, `C35_no_tension_partial`, `C35_no_utilisation_partial`, `C77_refuted`, `C77_float_positions_partial`
* `P_Arrays.v`: `C26_stored_loads_unchanged`, `C84_queries_are_pure`, `C84_constructor_copies`, `C85_loads_exposed_refuted`, `C85_others_unaffected_partial`
* `P_Beam.v`: `C07_beam_list_positions`, `C07_beam_get_loads`, `C07_beam_get_section`, `C13_accepted_exactly_when_consistent`, `C13_errors_otherwise`, `C13_every_element_answers_every_load_case`, `C14_floats`, `C23_refuted`, `C23_float_tables_partial`, `C24_refuted`, `C24_single_element_floats_partial`, `C24_single_element_floats_min_positions_partial`
* `P_Equal.v`: `C105_equivalence_doubles`, `C105_shipped`, `C111_loads_ignore_sections`, `C111_capacity_ignores_loads`
* `P_Errors.v`: `C147_constructors`, `C147_loads_partial`, `C147_positions_partial`, `C147_sections_partial`, `C147_conversions_partial`, `C147_positions_refuted`, `C147_numbers_refuted`, `C147_cases_refuted`, `C147_tables_refuted`, `C148_constructor_partial`, `C148_refuted`
* `P_FloatOrder.v`: `C129_floats_diameter_cap`, `C129_floats_width_cap`, `C129_floats_moment_cap`
* `P_FloatSecant.v`: `C152_limit`
* `P_AS4100Lit.v`: `C158_filters_keep_everything`, `C158_filter_meaning`
* `P_Listing.v`: `C136_table_read_back`, `C136_input_loads`, `C136_num_positions`, `C136_counts`, `C136_listed`, `C136_unlisted`
* `P_LoadCase.v`: `C02_floats`, `C08_name_number_enum_agree`, `C08_other_designators_are_rejected`, `C10_constant_load_floats`, `C11_empty_load_case_floats`, `C11_min_positions_is_TypeError`, `C75_none_or_empty_is_ValueError`, `C75_lists_and_arrays_agree`
* `P_Material.v`: `C37_shipped_steels_doubles`, `C39_list_and_lookup`, `C39_materials_carry_the_file`, `C39_unknown_type`
* `P_Objects.v`: `C94_check_follows_its_beam_refuted`, `C94_appended_element_refuted`, `C94_check_follows_its_beam_partial`, `C94_check_follows_its_steel_beam_partial`, `C95_only_steel_is_rated_refuted`, `C95_only_steel_is_rated_partial`, `C96_beam_stays_consistent_refuted`, `C96_deleted_load_case_refuted`, `C96_emptied_list_refuted`, `C96_beam_stays_consistent_partial`, `C97_frame`, `C97_frame_beam`, `C94_constructor_refines`, `C98_element_floats`, `C98_circle_floats`
* `P_Parts.v`: `C146_worst`, `C146_refusal`, `C146_more`
* `P_S5.v`: `C78_string_restraint_codes_refuted`
* `P_Sect.v`: `C71_symmetry_class`, `C71_symcount`, `C71_without_axes`
* `P_Solvers.v`: `C81_huge_brackets_refuted`, `C43_iteration_budget`

### `ClassicalDedekindReals.sig_forall_dec`

* `P_Restate.v`: `C135_constructor`

### `ClassicalDedekindReals.sig_forall_dec`, `FunctionalExtensionality.functional_extensionality_dep`

* `P_Design.v`: `C106_pin_defaults_refuted`, `C106_pin_thickness_partial`, `C109_single_weld_refuted`, `C109_single_weld_partial`
* `P_FloatBisect.v`: `C145_tiny_tolerance_refuted`
* `P_FloatFormulas.v`: `C124_covered`
* `P_FloatStored.v`: `C149_refuted`, `C150_refuted`
* `P_Floats.v`: `C113_floats_envelope_refuted`, `C113_floats_infinite_refuted`
* `P_Formulas.v`: `C89_interface_is_a_weld`, `C89_chs_is_a_web`
* `P_S5.v`: `C54_weld_total`, `C54_weld_order`, `C54_weld_value`, `C59_twist_restraint`, `C59_twist_restraint_value`, `C78_enum_codes_partial`

### `ClassicalDedekindReals.sig_forall_dec`, `ClassicalDedekindReals.sig_not_dec`, `FunctionalExtensionality.functional_extensionality_dep`

* `P_Sizes.v`: `C161_refuted`, `C161_listed`, `C161_listed_at`, `C161_listed_without_case`, `C161_partial`, `C161_at_partial`, `C161_positive_partial`
* `P_SecantConvex.v`: `C157_converges`, `C157_flat_function_fails`
* `P_AS4100.v`: `C26_positive_part`, `C28_at_positions`, `C28_all_sections`, `C28_single_section`, `C28_lower_bound`, `C28_list_of_positions`, `C28_design_capacity`, `C28_default_factors`, `C29_partial`, `C30_worst_ratio`, `C31_partial`, `C32_explicit_positions_partial`, `C32_same_positions_partial`, `C33_scaling`, `C33_at_most_one`
* `P_Beam.v`: `C10_constant_load_beam`, `C14_elements_tile_the_beam`, `C15_in_elements_finds_exactly_the_containing_elements`, `C16_beam_to_local`, `C16_local_to_beam`, `C16_zero_length_elements`, `C16_no_such_element`, `C17_triples_are_consistent`, `C17_arrangement`, `C18_min_positions_misses_no_discontinuity`, `C18_min_positions_without_load_case`, `C18_negative_number_is_ValueError`, `C19_off_beam_list_positions`, `C19_off_beam_get_loads`, `C19_off_beam_get_section`, `C19_no_other_position_error`, `C20_refuted`, `C20_iff_table_spans_the_element_partial`, `C20_without_load_case`, `C21_loads_are_those_of_the_triples`, `C21_loaded_beams_always_answer`, `C22_cutting_an_element_changes_no_load`, `C22_at_the_cut`, `C23_exact_arithmetic_partial`, `C23_exact_arithmetic_none_missing_partial`, `C24_exact_arithmetic_partial`, `C24_exact_arithmetic_min_positions_partial`, `C25_get_section_pairs_positions_with_sections`
* `P_Design.v`: `C106_pin_areas_partial`, `C107_default_reference_stress_refuted`, `C107_default_reference_stress_partial`, `C108_segment_capacity_exists`, `C108_falls_with_effective_length`, `C108_fewer_partial_ends`, `C110_plate_capacity`, `C110_plate_capacity_grows`
* `P_Equal.v`: `C105_equivalence`, `C105_meaning`, `C105_interchangeable_accepted`, `C105_interchangeable`
* `P_FloatColumn.v`: `C125_coupled_centroid`
* `P_FloatLinks.v`: `C118_same_program`
* `P_Formulas.v`: `C86_reference_moment_solves_buckling_equation`, `C87_slenderness_factor_equation`, `C88_bending_capacity_grows_with_strength`, `C88_bending_capacity_falls_with_length`, `C90_euler_load_is_area_times_stress`, `C90_euler_defined_together`, `C93_reference_moment_units`, `C93_factors_have_no_unit`
* `P_Heavier.v`: `C140_loads`, `C140_utilisation`, `C140_utilisation_at`
* `P_Listing.v`: `C136_unlisted_is_KeyError`, `C136_unlisted_min_positions`
* `P_LoadCase.v`: `C01_accepts_exactly_well_formed_tables`, `C01_wrong_width_is_LoadCaseError`, `C01_bad_positions_are_AssertionError`, `C02_stored_rows_or_linear_interpolation`, `C03_only_the_set_of_positions_matters`, `C03_tie_breaking_does_not_matter`, `C04_compositional_over_positions`, `C05_values_stay_in_the_stored_envelope`, `C05_between_neighbours`, `C06_positions`, `C06_loads`, `C06_negative_is_ValueError`, `C07_exactly_one_of_position_and_min_positions`, `C08_component_is_the_column_of_the_full_result`, `C09_scaling`, `C09_superposition`, `C10_constant_load`, `C10_constant_load_single_position`, `C11_empty_load_case`, `C12_positions_outside_rejected_refuted`, `C12_reference_routine_rejects_partial`, `C12_end_values_reported_partial`, `C75_multi_interp_row_wise`, `C76_unsorted_sample_points_rejected_refuted`, `C76_length_mismatch_rejected_partial`
* `P_Material.v`: `C36_first_covering_band`, `C36_refusals`, `C37_shipped_steels`, `C38_larger_bar_refuted`, `C38_larger_bar_partial`
* `P_Objects.v`: `C98_element`, `C98_circle`
* `P_Parts.v`: `C146_worst_exact`
* `P_Peak.v`: `C102_nothing_between_is_more_extreme`, `C102_every_reported_value_occurs`, `C103_worst_anywhere`, `C103_any_number_of_points`, `C103_no_single_position_is_worse`, `C104_cutting`, `C104_joining_left`, `C104_joining_right`, `C104_joining_equal_capacities`, `C104_mirrored`
* `P_Restate.v`: `C135_loads`, `C135_sections`, `C135_capacities`, `C135_demand`, `C135_utilisation`
* `P_S5.v`: `C52_alpha_v_range`, `C52_alpha_v_monotone`, `C53_alpha_vma_range`, `C53_alpha_vma_monotone`, `C53_alpha_vma_scale_free`, `C55_M_o_positive`, `C55_M_o_decreases_with_length`, `C55_M_o_doubly_symmetric`, `C56_alpha_m_capped`, `C56_alpha_m_defined`, `C56_alpha_m_scale_free`, `C56_alpha_m_sign_free`, `C56_alpha_m_uniform_moment`, `C57_alpha_s_range`, `C57_alpha_s_monotone`, `C58_bending_capacity_capped_refuted`, `C58_bending_capacity_capped_partial`
* `P_S6.v`: `C60_alpha_c_range`, `C61_alpha_c_total_refuted`, `C61_alpha_c_total_partial`, `C62_alpha_c_monotone`, `C62_alpha_c_monotone_in_lambda`, `C62_N_c_formula`, `C62_N_c_decreases_with_length`, `C79_monotone_for_all_section_constants_refuted`, `C79_monotone_from_stocky_limit_partial`, `C79_never_much_stronger_partial`, `C65_f_oxz`, `C65_double_symmetric`, `C68_unsymmetric_as4600_refuted`, `C68_offset_never_as4600`, `C68_unsymmetric_partial`, `C68_no_offset_partial`
* `P_S7.v`: `C50_design_is_inverse_of_capacity`, `C51_capacity_results_consistent`
* `P_Sect.v`: `C73_effective_plate_width`, `C73_effective_diameter`, `C73_effective_plate_area`, `C73_form_factor`, `C74_CHS_effective_area_refuted`, `C74_CHS_effective_diameter_partial`
* `P_Solvers.v`: `C40_never_leaves_bracket`, `C41_near_a_root`, `C42_absolute_tolerance_refuted`, `C42_absolute_tolerance_partial`, `C43_terminates_without_limit`, `C44_late_convergence_refuted`, `C44_late_convergence_partial`, `C45_same_sign_rejected`, `C45_bracketing_accepted`, `C45_bracketing_accepted_with_limit`, `C46_affine_exact`, `C47_residual`, `C48_always_a_result`, `C48_limit_one`, `C49_positional_arguments_refuted`, `C49_no_arguments_partial`
* `P_Tabulate.v`: `C137_tabulated`, `C137_sampled`, `C138_loads`, `C138_utilisation`, `C139_loads`, `C139_utilisation`, `C139_utilisation_at`
* `P_Transform.v`: `C99_loads`, `C99_sections`, `C100_list_positions`, `C100_loads`, `C100_sections`, `C100_capacity`, `C100_utilisation`, `C101_refuted`, `C101_loads_partial`, `C101_tables`, `C101_sections`

### `ClassicalDedekindReals.sig_forall_dec`, `ClassicalDedekindReals.sig_not_dec`, `Classical_Prop.classic`, `FunctionalExtensionality.functional_extensionality_dep`

* `P_SymDefault.v`: `C160_refuted`, `C160_partial`, `C160_torsion_partial`
* `P_NumCache.v`: `C159_partial`, `C159_capacities_partial`
* `P_Errors.v`: `C148_tension_partial`
* `P_FloatBisect.v`: `C144_terminates`, `C144_default_limit`, `C144_succeeds`, `C145_sign_change_partial`, `C145_same_sign_partial`
* `P_FloatColumn.v`: `C125_floats_coupled_stress_partial`, `C125_floats_coupled_stress_refuted`, `C126_floats_torsional_capacity`, `C127_floats_compression_flexural`, `C127_floats_compression_torsional`, `C127_same_program`
* `P_FloatFormulas.v`: `C118_floats_tension_capacity`, `C118_floats_tension_area`, `C122_floats_design_area_partial`, `C122_floats_design_area_refuted`, `C119_floats_shear_products`, `C119_floats_interface`, `C119_floats_welds`, `C119_floats_web_factor`, `C119_floats_stress_factor`, `C120_floats_bending_products`, `C120_floats_moment_factor`, `C120_floats_twist_factor`, `C120_floats_reference_moment`, `C123_floats_slenderness_partial`, `C123_floats_slenderness_refuted`, `C121_floats_compression_products`, `C121_floats_euler`, `C121_floats_polar_radius`, `C121_floats_torsion`, `C121_floats_modified_slenderness`, `C124_floats_member_factor_partial`, `C124_floats_member_factor_refuted`, `C124_floats_member_capacity_partial`
* `P_FloatLinks.v`: `C119_same_program`, `C120_same_program`, `C121_same_program`, `C123_same_program`, `C124_same_program`, `C128_same_slenderness`
* `P_FloatOrder.v`: `C128_floats_plate_slenderness`, `C128_floats_chs_slenderness`, `C128_floats_plate_width`, `C128_floats_chs_diameter`, `C128_floats_plate_area`, `C128_floats_form_factor`, `C128_same_plate_area`, `C128_same_chs_diameter`, `C129_floats_compression_least`, `C129_floats_tension_least`, `C130_floats_tension_grows`, `C130_floats_area_grows`, `C130_floats_shear_grows`, `C130_floats_interface_grows`, `C130_floats_welds_grow`, `C130_floats_stress_factor`, `C130_floats_bending_grows`, `C130_floats_squash_grows`, `C130_floats_euler_load`, `C130_floats_euler_stress`, `C130_floats_chs_slenderness`, `C130_floats_width_grows`, `C130_floats_form_factor`
* `P_FloatPlaces.v`: `C131_floats_ends`, `C132_floats_beam_to_local`, `C132_floats_local_to_beam`, `C132_floats_round_trip`, `C133_floats_loads`, `C133_floats_min_loads`, `C133_floats_all_loads`, `C134_floats_stored_loads`
* `P_FloatSecant.v`: `C151_refuted`, `C151_partial`, `C152_outcomes`
* `P_FloatStored.v`: `C149_stored_partial`, `C149_extremes_partial`, `C150_partial`
* `P_FloatTable.v`: `C141_accepts_exactly`, `C142_positions`, `C143_tabulated`, `C143_sampled`
* `P_FloatUtil.v`: `C115_floats_utilisation`, `C116_floats_capacity`, `C117_floats_design`
* `P_Floats.v`: `C15_floats`, `C16_floats_beam_to_local`, `C16_floats_local_to_beam`, `C17_floats`, `C18_floats`, `C24_floats_partial`, `C24_floats_short_element_refuted`, `C24_floats_min_positions_partial`, `C24_whole_steps_floats_partial`, `C81_ordinary_brackets_partial`, `C112_floats_monotone`, `C113_floats_envelope_partial`, `C114_floats_accurate`
* `P_Formulas.v`: `C91_stronger_steel_refuted`, `C91_stronger_steel_partial`, `C92_unit_independence_refuted`, `C92_unit_independence_partial`
* `P_S6.v`: `C63_capacity_is_minimum_of_modes`, `C63_modes`, `C63_defined`, `C64_no_buckling_check`, `C64_more_checks`, `C66_N_cz_formula`, `C66_N_cz_range`, `C66_N_cz_monotone`, `C66_switch`, `C66_stress_by_symmetry`, `C67_exchange_axes`, `C80_capacity_decreases_with_length_refuted`, `C80_capacity_decreases_with_length_partial`, `C80_all_section_constants_partial`
* `P_S6Cache.v`: `C69_history_independent`, `C69_equals_uncached`, `C70_results_stable_refuted`, `C70_always_rewritten`, `C70_results_stable_partial`, `C70_capacities_stable`, `C70_unshared_stable`, `C82_edit_isolated_refuted`, `C82_edit_isolated_partial`, `C83_torsion_result_refuted`, `C83_torsion_result_partial`
* `P_Threads.v`: `C153_thread_independent`, `C153_capacities`, `C153_same_program`, `C154_refuted`, `C154_always_possible`, `C154_partial`, `C155_broken_off_harmless`, `C156_wait_free`
* `P_Sect.v`: `C72_default_symmetry_refuted`, `C72_default_symmetry_partial`
