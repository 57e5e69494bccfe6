{"id": "C01", "title": "LoadCase accepts exactly the well-formed load tables", "statement": "LoadCase(loads=x) succeeds iff x is None, or a single row of 7 numbers, or an (n,7) table, whose positions are non-decreasing and all lie in [0,1]; the object then exposes exactly the rows given. A wrong width raises LoadCaseError, out-of-order or out-of-range positions raise AssertionError.", "quantifier": "every input table of any number of rows and columns", "why_tests_cant": "The acceptance test quantifies over all tables; a unit test only samples some.", "anchors": ["beamdesign/loadcase.py:LoadCase.__init__", "beamdesign/loadcase.py:LoadCase._set_loads"]}
{"id": "C02", "title": "get_load returns stored rows at stored positions and linear interpolation elsewhere", "statement": "For a load case with at least one row, get_load(position=ps) returns, for the distinct requested positions in ascending order, every stored row at that position (in stored order) when there is one, and otherwise one row whose components are interpolated linearly between the neighbouring stored rows (held constant beyond the first and last stored position).", "quantifier": "every accepted load table, every list of positions, every tie-breaking of the unstable numpy sort", "why_tests_cant": "The combine-and-double-sort code must be right for every mix of direct/interpolated positions and every admissible order returned by an unstable sort.", "anchors": ["beamdesign/loadcase.py:LoadCase.get_load", "beamdesign/loadcase.py:LoadCase.list_positions", "beamdesign/utility/interp.py:multi_interp"]}
{"id": "C03", "title": "get_load does not depend on the order or repetition of the requested positions", "statement": "Two position lists with the same set of values give exactly the same get_load result.", "quantifier": "all pairs of position lists with equal value sets", "why_tests_cant": "Permutations and duplications are unbounded.", "anchors": ["beamdesign/loadcase.py:LoadCase.get_load", "beamdesign/loadcase.py:LoadCase.list_positions"]}
{"id": "C04", "title": "get_load is compositional over positions", "statement": "get_load(position=[p1..pn]) is the vertical concatenation, over the distinct positions in ascending order, of get_load(position=p) - also equal to the reference single-position routine kept in the class - whether or not the fast path for 'positions equal the stored positions' is taken.", "quantifier": "every load table and every position list", "why_tests_cant": "Fast path and slow path must coincide for all tables.", "anchors": ["beamdesign/loadcase.py:LoadCase.get_load", "beamdesign/loadcase.py:LoadCase._get_load_single_position"]}
{"id": "C05", "title": "Interpolated loads never leave the stored envelope", "statement": "Every value returned by get_load for a component lies between the minimum and the maximum of that component's stored values, and between stored positions it lies between the two neighbouring stored values.", "quantifier": "all load tables, positions and components", "why_tests_cant": "Envelope safety must hold at every real position, not at sampled ones.", "anchors": ["beamdesign/loadcase.py:LoadCase.get_load", "beamdesign/utility/interp.py:multi_interp"]}
{"id": "C06", "title": "min_positions covers all stored and all evenly spaced positions", "statement": "list_positions(min_positions=n) and get_load(min_positions=n) return a strictly increasing list of positions in [0,1] holding every stored position and the n evenly spaced points, hence at least n positions (the internal assertion never fires); get_load then contains every stored row unchanged.", "quantifier": "all n >= 0 and all load tables", "why_tests_cant": "n and the table are unbounded.", "anchors": ["beamdesign/loadcase.py:LoadCase.list_positions", "beamdesign/loadcase.py:LoadCase.get_load"]}
{"id": "C07", "title": "position and min_positions are mutually exclusive", "statement": "Giving both or neither of position / min_positions is always rejected, for LoadCase (AssertionError), Beam (InvalidPositionError) and everything built on them; giving exactly one is never rejected for that reason.", "quantifier": "all load cases, beams and argument values", "why_tests_cant": "Ranges over every object state.", "anchors": ["beamdesign/loadcase.py:LoadCase.list_positions", "beamdesign/beam.py:Beam.list_positions"]}
{"id": "C08", "title": "A component can be named by number, by name or by enum, and selecting it equals taking its column", "statement": "get_load gives the same result for component c written as LoadComponents.c, as its name or as its number 1..6; the result equals the position column and column c of the full six-component result; any other name raises KeyError, any other number ValueError.", "quantifier": "all load tables, positions and component designators (all strings, all integers)", "why_tests_cant": "Strings and integers are unbounded.", "anchors": ["beamdesign/loadcase.py:LoadCase.get_load", "beamdesign/const.py:LoadComponents"]}
{"id": "C09", "title": "Loads obey scaling and superposition", "statement": "Scaling all stored components by k scales every result of get_load by k, and for two load cases with the same stored positions the loads of their sum are the sum of the loads at every position.", "quantifier": "all tables, all real factors, all positions", "why_tests_cant": "Algebraic law over reals.", "anchors": ["beamdesign/loadcase.py:LoadCase.get_load", "beamdesign/utility/interp.py:multi_interp"]}
{"id": "C10", "title": "A constant load case reports the same six values at every position", "statement": "LoadCase.constant_load(VX..T).get_load returns exactly the given six components at every requested position, and so does a Beam made of one constant-load element of positive length at every position on the beam.", "quantifier": "all component values and all positions", "why_tests_cant": "All positions.", "anchors": ["beamdesign/loadcase.py:LoadCase.constant_load", "beamdesign/element.py:Element.constant_load_element", "beamdesign/beam.py:Beam.get_loads"]}
{"id": "C11", "title": "An empty load case answers every query with None loads", "statement": "LoadCase().get_load(position=ps) returns one row (p, None) for each distinct position in ascending order whatever the component; min_positions queries on it raise TypeError.", "quantifier": "all position lists and components", "why_tests_cant": "All inputs.", "anchors": ["beamdesign/loadcase.py:LoadCase.get_load"]}
{"id": "C12", "title": "get_load rejects positions outside [0,1]", "statement": "Positions are documented to lie in [0,1]; a position outside is rejected by get_load.", "quantifier": "all positions", "why_tests_cant": "All inputs. (Violated: get_load silently extrapolates as a constant; only the unused single-position helper asserts.)", "anchors": ["beamdesign/loadcase.py:LoadCase.get_load", "beamdesign/loadcase.py:LoadCase._get_load_single_position"]}
{"id": "C13", "title": "A Beam is only built from consistent elements", "statement": "Beam(elements=es) succeeds iff es holds at least one element, only Element objects, and all of them carry the same load case ids in the same order; otherwise ElementError or ElementCaseError; afterwards every element answers every load case the beam lists.", "quantifier": "all element lists", "why_tests_cant": "Unbounded number of elements and load cases.", "anchors": ["beamdesign/beam.py:Beam.__init__", "beamdesign/beam.py:Beam._check_elements", "beamdesign/beam.py:Beam.load_cases"]}
{"id": "C14", "title": "Elements tile the beam", "statement": "element_ends starts at 0, each element starts where the previous one ends, each extent equals the element's length, and the last end is Beam.length.", "quantifier": "all beams with known lengths", "why_tests_cant": "Any number of elements.", "anchors": ["beamdesign/beam.py:Beam.element_ends", "beamdesign/beam.py:Beam.length", "beamdesign/beam.py:Beam.get_element_start_end"]}
{"id": "C15", "title": "in_elements finds exactly the elements containing a position", "statement": "in_elements(position=p) is the ascending list of ids whose closed extent contains p; it is non-empty iff 0 <= p <= length, its ids are consecutive, and a position strictly inside an element belongs to that element only.", "quantifier": "all beams and all positions", "why_tests_cant": "All positions and beams.", "anchors": ["beamdesign/beam.py:Beam.in_elements"]}
{"id": "C16", "title": "Beam and local positions convert back and forth", "statement": "For an element of positive length, beam_to_local_position succeeds exactly on the element's extent with a value in [0,1], local_to_beam_position maps [0,1] onto the extent, and the two are mutually inverse; outside, PositionNotInElementError is raised; on zero-length elements beam_to_local_position raises ElementLengthError.", "quantifier": "all beams, element ids (including Python's negative ids) and positions", "why_tests_cant": "Round trip over reals.", "anchors": ["beamdesign/beam.py:Beam.beam_to_local_position", "beamdesign/beam.py:Beam.local_to_beam_position"]}
{"id": "C17", "title": "Beam.list_positions returns consistent triples", "statement": "In every triple (p, e, l) returned by list_positions the element e contains p, and, for elements of positive length, l is the local position of p in e; the positions are non-decreasing, for explicit positions they are exactly the requested distinct ones, and each appears for every element that contains it.", "quantifier": "all beams, load cases and position arguments", "why_tests_cant": "All beams/arguments.", "anchors": ["beamdesign/beam.py:Beam.list_positions"]}
{"id": "C18", "title": "Beam.list_positions(min_positions=n) misses no discontinuity", "statement": "With min_positions=n the positions contain every element start and end, every stored load position of the load case, and the n evenly spaced points; on a beam of positive length at least n distinct positions are returned.", "quantifier": "all n, beams, load cases", "why_tests_cant": "Unbounded.", "anchors": ["beamdesign/beam.py:Beam.list_positions"]}
{"id": "C19", "title": "Explicit positions off the beam are rejected", "statement": "Beam.list_positions / get_loads / get_section raise PositionNotInBeamError iff some requested position is < 0 or > Beam.length (given the lengths are known), and on-beam positions never fail with a position error.", "quantifier": "all beams and position lists", "why_tests_cant": "All inputs. In binary floating point the second half is violated (see C24).", "anchors": ["beamdesign/beam.py:Beam.list_positions"]}
{"id": "C20", "title": "Local positions on zero-length elements lie in [0,1] and include both ends and all stored load positions", "statement": "At a zero-length element list_positions(load_case=c) yields local positions within [0,1] that contain 0, 1 and every stored load position.", "quantifier": "all beams and load cases", "why_tests_cant": "All tables. (Violated: numpy broadcasting adds 1.0 to every stored position instead of appending 1.0.)", "anchors": ["beamdesign/beam.py:Beam.list_positions"]}
{"id": "C21", "title": "Beam.get_loads reports each element's loads at the corresponding local position", "statement": "get_loads(load_case=c, ...) is the concatenation over the (p,e,l) triples of list_positions of element e's loads at l with the position column replaced by p.", "quantifier": "all beams, load cases, positions, components", "why_tests_cant": "All beams/arguments.", "anchors": ["beamdesign/beam.py:Beam.get_loads", "beamdesign/element.py:Element.get_loads"]}
{"id": "C22", "title": "Cutting an element does not change the beam's loads", "statement": "Replacing a positive-length element by two elements obtained by cutting it at an interior point (loads cut by interpolation) leaves Beam.get_loads unchanged at every position other than the cut; at the cut every row appears twice, once per piece.", "quantifier": "all elements, cut points and positions", "why_tests_cant": "All reals.", "anchors": ["beamdesign/beam.py:Beam.get_loads"]}
{"id": "C23", "title": "The reported position is the requested position", "statement": "The first column returned by Beam.get_loads holds exactly the beam positions.", "quantifier": "all beams, load tables (integer or float typed), positions", "why_tests_cant": "Depends on the dtype of the stored array. (Violated for integer tables: positions are truncated.)", "anchors": ["beamdesign/beam.py:Beam.get_loads"]}
{"id": "C24", "title": "Every position on the beam can be queried, also in floating point", "statement": "For every position p with 0 <= p <= Beam.length, get_loads(position=p) and list_positions(min_positions=n) succeed with IEEE binary64 arithmetic.", "quantifier": "all binary64 element lengths and positions", "why_tests_cant": "Rounding depends on all bit patterns. (Violated: rounding makes overlap exceed the length and raises PositionNotInElementError.)", "anchors": ["beamdesign/beam.py:Beam.beam_to_local_position", "beamdesign/beam.py:Beam.in_elements", "beamdesign/beam.py:Beam.list_positions"]}
{"id": "C25", "title": "get_section pairs each position with the section of each element there", "statement": "Beam.get_section returns the positions of list_positions with the section of the corresponding element; AS4100.get_as4100_section gives the wrapped sections of the same elements.", "quantifier": "all beams and arguments", "why_tests_cant": "All beams.", "anchors": ["beamdesign/beam.py:Beam.get_section", "beamdesign/codecheck/as4100/as4100.py:AS4100.get_as4100_section", "beamdesign/codecheck/codecheck.py:CodeCheck.get_section"]}
{"id": "C26", "title": "get_tension is the positive part of the axial load", "statement": "get_tension returns the rows of get_loads(component='N') with the load replaced by max(N,0), leaving the beam's stored loads unchanged.", "quantifier": "all beams, load cases and positions", "why_tests_cant": "All loads.", "anchors": ["beamdesign/codecheck/codecheck.py:CodeCheck.get_tension", "beamdesign/codecheck/as4100/as4100.py:AS4100.get_tension"]}
{"id": "C27", "title": "A code check needs a beam or a section, made of steel circles", "statement": "Constructing AS4100 with neither raises CodeCheckError; with any section that is not a Circle NotImplementedError, with a non-steel one InvalidMaterialError and with a circle without material AttributeError (first offender wins); otherwise it succeeds and as4100_sections[i] wraps sections[i].", "quantifier": "all section lists", "why_tests_cant": "Any number of sections.", "anchors": ["beamdesign/codecheck/codecheck.py:CodeCheck.__init__", "beamdesign/codecheck/as4100/as4100.py:AS4100.__init__", "beamdesign/codecheck/as4100/as4100_sect_props.py:AS4100Section.AS4100_sect_factory"]}
{"id": "C28", "title": "Nt is the minimum section tension capacity", "statement": "Nt(position) = min over the sections present at the given positions (all sections when None) of min(Ag fy, An fu kt alpha_u); hence Nt() <= Nt(position=ps) for every ps, and Nt of a list of positions is the minimum of the Nt of its members; phiNt = phi * Nt.", "quantifier": "all AS4100 objects and position arguments", "why_tests_cant": "All beams.", "anchors": ["beamdesign/codecheck/as4100/as4100.py:AS4100.Nt", "beamdesign/codecheck/as4100/as4100.py:AS4100.Nty", "beamdesign/codecheck/as4100/as4100.py:AS4100.Ntu", "beamdesign/codecheck/as4100/as4100.py:AS4100.s7_1_Nt"]}
{"id": "C29", "title": "phiNtu is phi times Ntu", "statement": "φNtu(position) = φ_steel * Ntu(position).", "quantifier": "all AS4100 objects and positions", "why_tests_cant": "All objects. (Violated: φNtu multiplies Nty.)", "anchors": ["beamdesign/codecheck/as4100/as4100.py:AS4100.φNtu"]}
{"id": "C30", "title": "tension_utilisation is the worst load-to-capacity ratio", "statement": "With explicit load cases and positions the utilisation is the maximum over them of max(N,0)/phiNt at that position (0 if there is no tension), provided capacities are positive and no positive ratio is below 5.1e-15.", "quantifier": "all beams, load cases, positions", "why_tests_cant": "The value is found by an iterative solver; exactness must hold for every load/capacity pair.", "anchors": ["beamdesign/codecheck/as4100/as4100.py:AS4100.tension_utilisation", "beamdesign/utility/solvers.py:secant"]}
{"id": "C31", "title": "tension_utilisation is defined for every tension load", "statement": "For every positive tension load and positive capacity the utilisation is returned (no solver error).", "quantifier": "all positive loads and capacities", "why_tests_cant": "All magnitudes. (Violated: ratios <= 5e-15 make the solver raise ValueError.)", "anchors": ["beamdesign/codecheck/as4100/as4100.py:AS4100.tension_utilisation", "beamdesign/utility/solvers.py:secant"]}
{"id": "C32", "title": "Without a load case the highest utilisation of any load case is returned", "statement": "tension_utilisation() >= tension_utilisation(load_case=c) for each load case c, and equals one of them.", "quantifier": "all beams with any number of load cases", "why_tests_cant": "All load tables. (Violated: the positions found for the first load case are reused for all others.)", "anchors": ["beamdesign/codecheck/as4100/as4100.py:AS4100.tension_utilisation"]}
{"id": "C33", "title": "Utilisation scales with the load and compares to 1 like load to capacity", "statement": "Multiplying all axial loads by k>0 multiplies the utilisation by k; utilisation <= 1 iff no considered tension exceeds the capacity at its position.", "quantifier": "all beams and factors", "why_tests_cant": "All reals.", "anchors": ["beamdesign/codecheck/as4100/as4100.py:AS4100.tension_utilisation"]}
{"id": "C34", "title": "get_section honours min_positions and load_case on a code check object", "statement": "AS4100.get_section(min_positions=n, load_case=c) equals Beam.get_section with the same arguments.", "quantifier": "all beams and arguments", "why_tests_cant": "All arguments. (Violated: both arguments are dropped.)", "anchors": ["beamdesign/codecheck/as4100/as4100.py:AS4100.get_section"]}
{"id": "C35", "title": "Section-only code checks raise SectionOnlyError for beam queries", "statement": "With only a section, get_section, get_as4100_section, get_loads and get_tension raise SectionOnlyError.", "quantifier": "all section-only objects and arguments", "why_tests_cant": "All arguments. (Violated by get_tension and tension_utilisation, which raise AttributeError.)", "anchors": ["beamdesign/codecheck/codecheck.py:CodeCheck.get_loads", "beamdesign/codecheck/codecheck.py:CodeCheck.get_tension", "beamdesign/codecheck/as4100/as4100.py:AS4100.get_as4100_section"]}
{"id": "C36", "title": "Steel strength is that of the first thickness band that covers the thickness", "statement": "The yield / ultimate strength for thickness t is the entry of the first band whose upper bound is >= t; negative t or t above the last bound raise InvalidThicknessError, a table whose bounds are not strictly increasing raises InvalidMaterialError, and no other outcome is possible for a rectangular non-empty table.", "quantifier": "all thicknesses and all strength tables", "why_tests_cant": "All tables.", "anchors": ["beamdesign/codecheck/as4100/as4100_sect_props.py:AS4100Section._get_f"]}
{"id": "C37", "title": "The shipped steels behave monotonically", "statement": "For every shipped steel with strengths, every thickness in (0, max]: yield <= ultimate, and neither increases with thickness; no lookup in range fails.", "quantifier": "all shipped materials and all thicknesses", "why_tests_cant": "Thickness is a continuum.", "anchors": ["beamdesign/materials/material.toml", "beamdesign/codecheck/as4100/as4100_sect_props.py:AS4100Section._get_f"]}
{"id": "C38", "title": "A larger round bar is never weaker in tension", "statement": "For a fixed shipped steel, Nt of a Circle does not decrease when the radius grows within the tabulated range.", "quantifier": "all radii", "why_tests_cant": "All radii. (Violated at strength band boundaries.)", "anchors": ["beamdesign/codecheck/as4100/as4100_sect_props.py:AS4100Circle", "beamdesign/sections/circle.py:Circle.area", "beamdesign/codecheck/as4100/as4100.py:AS4100.Nt"]}
{"id": "C39", "title": "load_list and load_material agree", "statement": "load_list() is exactly the list of keys of load_material(); load_material(name=k) is that dictionary's entry, KeyError for unknown k; each Material carries the file's type, name and standard and all remaining properties; unknown types raise ValueError.", "quantifier": "all material files", "why_tests_cant": "All files.", "anchors": ["beamdesign/materials/material.py:Material.load_material", "beamdesign/materials/material.py:Material.load_list"]}
{"id": "C40", "title": "bisection never leaves the bracket", "statement": "Whenever bisection returns, the returned x lies between x_low and x_high (in either order).", "quantifier": "all functions, brackets, tolerances and iteration limits", "why_tests_cant": "All functions.", "anchors": ["beamdesign/utility/solvers.py:bisection"]}
{"id": "C41", "title": "bisection returns a point near a true root", "statement": "For continuous func, when bisection returns x by convergence there is a root within half of max(tol, 1e-9*max(|bracket|)) of x, or |func(x)| <= tol.", "quantifier": "all continuous functions and brackets", "why_tests_cant": "All functions.", "anchors": ["beamdesign/utility/solvers.py:bisection"]}
{"id": "C42", "title": "bisection's tolerance is absolute", "statement": "When bisection returns by convergence a root lies within tol of the returned x.", "quantifier": "all continuous functions", "why_tests_cant": "All functions. (Violated: math.isclose's default relative tolerance 1e-9 also stops the loop.)", "anchors": ["beamdesign/utility/solvers.py:bisection"]}
{"id": "C43", "title": "bisection terminates within its iteration budget", "statement": "With max_its = m bisection performs at most m iterations; for exact arithmetic and tol > 0 it terminates even with max_its=None, after at most ceil(log2(width/tol)) iterations.", "quantifier": "all functions, brackets, limits", "why_tests_cant": "All functions.", "anchors": ["beamdesign/utility/solvers.py:bisection"]}
{"id": "C44", "title": "bisection reports failure to converge only when it failed to converge", "statement": "'Exceeded maximum number of iterations' is raised only if the bracket is still wider than the tolerance after max_its iterations.", "quantifier": "all functions and limits", "why_tests_cant": "All inputs. (Violated: the limit is tested before convergence is re-tested.)", "anchors": ["beamdesign/utility/solvers.py:bisection"]}
{"id": "C45", "title": "Same-sign guesses are rejected, bracketing guesses are not", "statement": "If func has the same strict sign beyond tol at both guesses, bisection raises ValueError; if the signs differ it never raises the bracketing error in any iteration.", "quantifier": "all functions", "why_tests_cant": "All functions.", "anchors": ["beamdesign/utility/solvers.py:bisection"]}
{"id": "C46", "title": "secant solves affine equations exactly", "statement": "For func(x) = m x + q with m != 0 (and guesses whose values are distinguishable by the tolerance) secant returns the exact root in exact arithmetic, after at most 2 iterations.", "quantifier": "all m, q and guesses", "why_tests_cant": "All reals.", "anchors": ["beamdesign/utility/solvers.py:secant"]}
{"id": "C47", "title": "secant's result has a small residual", "statement": "When secant returns x without falling back and func is L-Lipschitz, |func(x)| <= 2 L max(tol, 1e-9 max(|x|,|previous|)).", "quantifier": "all Lipschitz functions", "why_tests_cant": "All functions.", "anchors": ["beamdesign/utility/solvers.py:secant"]}
{"id": "C48", "title": "secant always has a result to return", "statement": "secant either raises ValueError or performs at least one iteration; it never returns an undefined result, and with max_its=m performs at most m iterations.", "quantifier": "all functions, guesses", "why_tests_cant": "All inputs.", "anchors": ["beamdesign/utility/solvers.py:secant"]}
{"id": "C49", "title": "secant falls back to bisection when asked to", "statement": "With fallback=True, exhausting max_its returns bisection's result on the original bracket for the same function and arguments.", "quantifier": "all functions with any number of extra positional arguments", "why_tests_cant": "All arguments. (Violated when func takes positional arguments: TypeError.)", "anchors": ["beamdesign/utility/solvers.py:secant"]}
{"id": "C50", "title": "Tension design and tension capacity are inverse", "statement": "The area φA returned by s7_1_A_reqd gives, used as gross and net area in s7_1_N_t with the same parameters, a φN >= N_t, and any area with φN >= N_t is at least φA.", "quantifier": "all positive loads, strengths and factors", "why_tests_cant": "All reals.", "anchors": ["beamdesign/codecheck/as4100/S7.py:s7_1_A_reqd", "beamdesign/codecheck/as4100/S7.py:s7_1_N_t"]}
{"id": "C51", "title": "s7_1_N_t results are consistent", "statement": "N = min(N_ty,N_tu), each φ-value is φ times its base, φN = min(φN_ty, φN_tu) for φ>=0, and N agrees with AS4100.s7_1_Nt.", "quantifier": "all inputs", "why_tests_cant": "All reals.", "anchors": ["beamdesign/codecheck/as4100/S7.py:s7_1_N_t", "beamdesign/codecheck/as4100/as4100.py:AS4100.s7_1_Nt"]}
{"id": "C52", "title": "The shear buckling coefficient is in (0,1] and decreases with slenderness", "statement": "α_v is 1 up to the limiting slenderness, strictly between 0 and 1 beyond, continuous at the limit and non-increasing in d_p, f_y and non-decreasing in t_w.", "quantifier": "all positive inputs", "why_tests_cant": "All reals.", "anchors": ["beamdesign/codecheck/as4100/S5_Shear.py:s5_11_5_α_v"]}
{"id": "C53", "title": "The non-uniform shear factor is at most 1", "statement": "For positive stresses α_vma is in (0,1], is 1 iff f_vm/f_va <= 1.1, and is non-increasing in f_vm; only the ratio matters.", "quantifier": "all positive stresses", "why_tests_cant": "All reals.", "anchors": ["beamdesign/codecheck/as4100/S5_Shear.py:s5_11_3_α_vma"]}
{"id": "C54", "title": "Weld shear capacity depends only on the total weld capacity", "statement": "s5_11_4_V_w_Weld gives the same value for a list of weld capacities as for their sum as a float.", "quantifier": "all lists of weld capacities", "why_tests_cant": "Lists are unbounded.", "anchors": ["beamdesign/codecheck/as4100/S5_Shear.py:s5_11_4_V_w_Weld"]}
{"id": "C55", "title": "The reference buckling moment is positive and decreases with length", "statement": "For positive properties and any monosymmetry constant (of either sign) M_o > 0, M_o strictly decreases with the effective length (β_x >= 0), and for β_x = 0 it is the doubly-symmetric formula sqrt(π²EI_y/l² (GJ + π²EI_w/l²)).", "quantifier": "all positive inputs", "why_tests_cant": "All reals.", "anchors": ["beamdesign/codecheck/as4100/S5.py:s5_6_1_M_o"]}
{"id": "C56", "title": "α_m is capped, scale free and sign free", "statement": "α_m <= α_m_max, it is unchanged when all moments are scaled by a non-zero factor or individually change sign, and for uniform moment it is 1.7/sqrt(3).", "quantifier": "all moments", "why_tests_cant": "All reals.", "anchors": ["beamdesign/codecheck/as4100/S5.py:s5_6_1_α_m"]}
{"id": "C57", "title": "α_s lies in (0, 0.6 sqrt 3) and decreases with M_s/M_o", "statement": "For positive M_s, M_o the slenderness factor is positive, below 0.6·√3, strictly decreasing in M_s and increasing in M_o.", "quantifier": "all positive M_s, M_o", "why_tests_cant": "All reals.", "anchors": ["beamdesign/codecheck/as4100/S5.py:s5_6_α_s"]}
{"id": "C58", "title": "Member bending capacity never exceeds section capacity", "statement": "s5_6_1_Mb with α_s from s5_6_α_s never exceeds M_s.", "quantifier": "all M_s, M_o, α_m", "why_tests_cant": "All reals. (Violated: no cap is applied and α_s can reach 1.039.)", "anchors": ["beamdesign/codecheck/as4100/S5.py:s5_6_1_Mb", "beamdesign/codecheck/as4100/S5.py:s5_6_α_s"]}
{"id": "C59", "title": "The twist restraint factor is at least 1 and ordered by restraint", "statement": "k_t is 1 for FF/FL/LL/FU, >= 1 for FP/PL/PU and PP, with k_t(PP)-1 = 2 (k_t(FP)-1); every restraint code has a value.", "quantifier": "all positive dimensions and all restraint codes", "why_tests_cant": "All reals.", "anchors": ["beamdesign/codecheck/as4100/S5.py:s5_6_3_k_t"]}
{"id": "C60", "title": "The compression buckling factor is in (0,1]", "statement": "α_c is well defined (real, no zero division) for every λ_n and α_b whose modified slenderness is non-zero, 0 < α_c <= 1, and equals 1 exactly when -90 <= λ <= 13.5.", "quantifier": "all λ_n and α_b", "why_tests_cant": "All reals.", "anchors": ["beamdesign/codecheck/as4100/S6.py:s6_3_3_α_c"]}
{"id": "C61", "title": "The buckling factor is defined for every slenderness", "statement": "s6_3_3_α_c returns a value for every λ_n >= 0.", "quantifier": "all λ_n", "why_tests_cant": "All reals. (Violated: some λ_n makes λ = 0 and divides by zero.)", "anchors": ["beamdesign/codecheck/as4100/S6.py:s6_3_3_α_c"]}
{"id": "C62", "title": "A more slender member is never stronger", "statement": "α_c is non-increasing in λ (for λ>0) and, for 0 <= α_b <= 1, in λ_n; N_c is non-increasing in effective length, for members beyond the stocky range.", "quantifier": "all slendernesses and lengths", "why_tests_cant": "All reals.", "anchors": ["beamdesign/codecheck/as4100/S6.py:s6_3_3_α_c", "beamdesign/codecheck/as4100/S6.py:s6_3_3_N_c"]}
{"id": "C63", "title": "Member compression capacity is the minimum of all modes and never exceeds the section capacity", "statement": "s6_1_1_Nc returns N_c = min of N_s and every computed mode, N_c <= N_s, φN_c = φ N_c, for all combinations of the calculation flags.", "quantifier": "all inputs, flags, symmetry types", "why_tests_cant": "All reals and flags.", "anchors": ["beamdesign/codecheck/as4100/S6.py:s6_1_1_Nc"]}
{"id": "C64", "title": "Disabling checks is explicit", "statement": "With calc_buckling=False N_c = N_s whatever calc_torsion is; torsion is only computed when both flags are set; adding a check never increases N_c.", "quantifier": "all inputs", "why_tests_cant": "All reals.", "anchors": ["beamdesign/codecheck/as4100/S6.py:s6_1_1_Nc"]}
{"id": "C65", "title": "The flexural-torsional stress does not exceed either pure mode", "statement": "For positive f_ox, f_oz and 0 < β <= 1 the value f_oxz is real, positive and <= min(f_ox, f_oz), with equality for x_o = 0 (β = 1).", "quantifier": "all positive section properties and shear centre offsets", "why_tests_cant": "All reals.", "anchors": ["beamdesign/codecheck/as4100/S6.py:f_oxz", "beamdesign/codecheck/as4100/S6.py:f_oc_double_symmetric"]}
{"id": "C66", "title": "Torsional capacity is bounded by 0.85 times the effective squash load and decreases with torsional slenderness", "statement": "0 < N_cz <= uncertainty * A_e * f_y; N_cz is non-decreasing in f_oc within each branch and drops by less than 0.1% across the λ_c = 1.5 switch. The stress f_oc used is the torsional stress for point symmetry, the smaller root of the coupled flexural-torsional equation about the axis of symmetry for single and double symmetry, and the smallest positive root of the cubic otherwise.", "quantifier": "all f_oc, f_y", "why_tests_cant": "All reals.", "anchors": ["beamdesign/codecheck/as4100/S6.py:s6_3_3_N_c_torsion"]}
{"id": "C67", "title": "Singly symmetric sections: x and y are interchangeable", "statement": "The result for symmetry about y equals the result for symmetry about x with all x- and y-quantities exchanged.", "quantifier": "all inputs", "why_tests_cant": "All reals.", "anchors": ["beamdesign/codecheck/as4100/S6.py:f_oc_single_symmetric"]}
{"id": "C68", "title": "The unsymmetric buckling stress is a root of AS4600's cubic", "statement": "f_oc_unsymmetric returns the smallest non-negative real root of (r²-x_o²-y_o²)f³ - ... = 0.", "quantifier": "all section properties, every root finder that is correct", "why_tests_cant": "All reals. (Violated: the leading coefficient uses x_o²·y_o².)", "anchors": ["beamdesign/codecheck/as4100/S6.py:f_oc_unsymmetric"]}
{"id": "C69", "title": "Numerical results do not depend on call history (memoisation is transparent)", "statement": "Whatever sequence of S6 functions was called before, the capacity N_c and all numbers returned by s6_1_1_Nc equal those of a fresh interpreter.", "quantifier": "all call histories", "why_tests_cant": "Histories are unbounded; lru_cache eviction included.", "anchors": ["beamdesign/codecheck/as4100/S6.py:f_oxz", "beamdesign/codecheck/as4100/S6.py:r_ol", "beamdesign/codecheck/as4100/S6.py:f_euler_torsion"]}
{"id": "C70", "title": "Results already handed out do not change", "statement": "A result dictionary returned by an S6 function is not modified by later calls.", "quantifier": "all call histories", "why_tests_cant": "Histories are unbounded. (Violated: f_oxz's cached dictionary is shared and updated in place.)", "anchors": ["beamdesign/codecheck/as4100/S6.py:f_oxz", "beamdesign/codecheck/as4100/S6.py:f_oc_double_symmetric", "beamdesign/codecheck/as4100/S6.py:s6_3_3_N_c_torsion"]}
{"id": "C71", "title": "Symmetry classification is total and exclusive", "statement": "Every axes list has exactly one class: Double iff it is a two-entry list of x and y, Point iff the single entry is point/Point/POINT, Single iff any other single entry, None otherwise; symcount is the length; both fail exactly for an object made without axes.", "quantifier": "all axes lists", "why_tests_cant": "Unbounded lists.", "anchors": ["beamdesign/utility/symmetry.py:Symmetry"]}
{"id": "C72", "title": "The default symmetry argument is usable", "statement": "s6_1_1_Nc called without sym computes a torsional capacity.", "quantifier": "all inputs", "why_tests_cant": "All inputs. (Violated: Symmetry() has axes None and raises TypeError.)", "anchors": ["beamdesign/codecheck/as4100/S6.py:s6_1_1_Nc", "beamdesign/utility/symmetry.py:Symmetry"]}
{"id": "C73", "title": "Effective widths never exceed actual widths", "statement": "s6_2_b_e_flatplate <= b, s6_2_d_e_CHS <= d_o, with equality iff λ_e <= λ_ey (plates); the effective plate area never exceeds b t.", "quantifier": "all positive inputs", "why_tests_cant": "All reals.", "anchors": ["beamdesign/codecheck/as4100/as4100_sect_props.py:s6_2_b_e_flatplate", "beamdesign/codecheck/as4100/as4100_sect_props.py:s6_2_d_e_CHS", "beamdesign/codecheck/as4100/as4100_sect_props.py:s6_2_A_e_flatplate"]}
{"id": "C74", "title": "The effective area of a CHS can be computed", "statement": "s6_2_A_e_CHS returns an area for positive inputs.", "quantifier": "all inputs", "why_tests_cant": "All inputs. (Violated: HollowCircle cannot be instantiated.)", "anchors": ["beamdesign/codecheck/as4100/as4100_sect_props.py:s6_2_A_e_CHS", "beamdesign/sections/hollowcircle.py:HollowCircle"]}
{"id": "C75", "title": "multi_interp is row-wise np.interp", "statement": "multi_interp with a table fp gives for each row of fp the one-dimensional interpolation; None or an empty list of x raises ValueError.", "quantifier": "all tables and points", "why_tests_cant": "All tables.", "anchors": ["beamdesign/utility/interp.py:multi_interp"]}
{"id": "C76", "title": "multi_interp rejects unsorted sample points", "statement": "multi_interp raises ValueError when xp is not sorted, as documented.", "quantifier": "all xp", "why_tests_cant": "All inputs. (Violated: there is no such check.)", "anchors": ["beamdesign/utility/interp.py:multi_interp"]}
{"id": "C77", "title": "Integer element lengths are as good as floats", "statement": "tension_utilisation() on a beam whose element lengths are Python ints gives the same value as with the equal floats.", "quantifier": "all beams", "why_tests_cant": "All beams. (Violated: an int position reaches a float-only branch and raises TypeError.)", "anchors": ["beamdesign/codecheck/as4100/as4100.py:AS4100.tension_utilisation", "beamdesign/beam.py:Beam.list_positions", "beamdesign/beam.py:Beam.element_ends"]}
{"id": "C78", "title": "Restraint codes may be given as strings", "statement": "s5_6_3_k_t accepts the documented strings 'FF','FL',... ", "quantifier": "all codes", "why_tests_cant": "All inputs. (Violated: only enum members are accepted.)", "anchors": ["beamdesign/codecheck/as4100/S5.py:s5_6_3_k_t"]}
{"id": "C79", "title": "A more slender member is never stronger, for every tabulated section constant", "statement": "For each member section constant of AS4100 table 6.3.3 (alpha_b in -1, -0.5, 0, 0.5, 1) alpha_c is non-increasing in the slenderness.", "quantifier": "all slendernesses, all tabulated alpha_b", "why_tests_cant": "All reals. (Violated for alpha_b = -1 below the stocky limit; holds for alpha_b >= -0.9: C62.)", "anchors": ["beamdesign/codecheck/as4100/S6.py:s6_3_3_α_c"]}
{"id": "C80", "title": "A longer member never has a larger compression capacity", "statement": "With everything else fixed, N_c and φN_c returned by s6_1_1_Nc do not increase when the member gets longer, whatever combination of checks is enabled (flexural, flexural-torsional, torsional).", "quantifier": "all sections, lengths, effective length factors, flags", "why_tests_cant": "All reals. (Violated for sections without a symmetry and large offsets; holds when x_o²y_o² <= x_o²+y_o².)", "anchors": ["beamdesign/codecheck/as4100/S6.py:s6_1_1_Nc", "beamdesign/codecheck/as4100/S6.py:s6_3_3_N_c_torsion"]}
{"id": "C81", "title": "bisection stays in the bracket even for very large numbers", "statement": "On doubles too, whenever bisection returns, the returned x lies between two finite guesses.", "quantifier": "all finite brackets", "why_tests_cant": "All doubles: brackets of huge numbers are needed. (Violated: (x_low+x_high)/2 overflows to infinity.)", "anchors": ["beamdesign/utility/solvers.py:bisection"]}
{"id": "C82", "title": "Editing a returned dictionary does not affect later calls", "statement": "Whatever a caller stores in a result dictionary it received from an S6 function, later S6 calls compute what they would have computed in a fresh interpreter.", "quantifier": "all histories of calls and edits", "why_tests_cant": "Histories are unbounded. (Violated: f_oxz's returned dictionary is its cache entry.)", "anchors": ["beamdesign/codecheck/as4100/S6.py:f_oxz", "beamdesign/codecheck/as4100/S6.py:f_oc_single_symmetric"]}
{"id": "C83", "title": "The whole result of s6_3_3_N_c_torsion depends only on its arguments", "statement": "Whatever was called before, every entry of the dictionary returned by s6_3_3_N_c_torsion (and of its Intermediate dictionary) equals that of a fresh interpreter.", "quantifier": "all call histories", "why_tests_cant": "Histories are unbounded. (Violated: a stale 'Axis of Symmetry' and 'N_cz_buckling' are left in the shared dictionary.)", "anchors": ["beamdesign/codecheck/as4100/S6.py:s6_3_3_N_c_torsion", "beamdesign/codecheck/as4100/S6.py:f_oc_single_symmetric"]}
{"id": "C84", "title": "Queries leave the stored loads alone", "statement": "In any history of queries (LoadCase.get_load, Beam.get_loads, AS4100.get_tension, tension_utilisation) interleaved with item assignments into the arrays those queries returned, every query answers exactly as if asked first, and no stored load case changes.", "quantifier": "all histories of queries and edits of returned arrays", "why_tests_cant": "Histories are unbounded; get_loads and get_tension write into numpy arrays in place.", "anchors": ["beamdesign/loadcase.py:LoadCase.get_load", "beamdesign/beam.py:Beam.get_loads", "beamdesign/codecheck/codecheck.py:CodeCheck.get_tension", "beamdesign/codecheck/as4100/as4100.py:AS4100.tension_utilisation"]}
{"id": "C85", "title": "The arrays of the loads properties cannot be used to change a load case", "statement": "Assigning into the arrays returned by LoadCase.loads and LoadCase.load_positions does not change what the load case answers later, nor can it give a load case a table its constructor refuses.", "quantifier": "all histories of property reads and edits", "why_tests_cant": "Histories are unbounded. (Violated: loads returns the stored array itself and load_positions a writable view; other load cases are unaffected.)", "anchors": ["beamdesign/loadcase.py:LoadCase.loads", "beamdesign/loadcase.py:LoadCase.load_positions"]}
{"id": "C86", "title": "The reference buckling moment solves the buckling equation", "statement": "M_o returned by s5_6_1_M_o is the only positive solution M of M² = (π²EI_y/l²)(GJ + π²EI_w/l² + β_x M), also for monosymmetric sections with β_x of either sign.", "quantifier": "all positive section properties and lengths, all β_x", "why_tests_cant": "All reals; the code evaluates a closed form with nested square roots.", "anchors": ["beamdesign/codecheck/as4100/S5.py:s5_6_1_M_o"]}
{"id": "C87", "title": "The slenderness reduction factor solves its quadratic and stays below the elastic limit", "statement": "α_s is the only positive solution of α² + 1.2 (M_s/M_o) α = 1.08, and α_s M_s < 0.9 M_o.", "quantifier": "all positive M_s, M_o", "why_tests_cant": "All reals.", "anchors": ["beamdesign/codecheck/as4100/S5.py:s5_6_α_s"]}
{"id": "C88", "title": "The member moment capacity grows with strength and falls with length", "statement": "With everything else fixed, M_b = α_m α_s M_s does not decrease when f_y or Z_e increase, and does not increase when the effective length increases.", "quantifier": "all section properties, lengths, α_m >= 0", "why_tests_cant": "All reals: a larger M_s lowers α_s, so the product is not monotone by construction.", "anchors": ["beamdesign/codecheck/as4100/S5.py:s5_6_1_Mb", "beamdesign/codecheck/as4100/S5.py:s5_6_α_s", "beamdesign/codecheck/as4100/S5.py:s5_6_1_M_o", "beamdesign/codecheck/as4100/S5.py:s5_2_M_s"]}
{"id": "C89", "title": "The shear formulations agree", "statement": "The capacity of an interface equals that of a weld of strength s f_y t; the capacity of a CHS equals that of a generic web of area k A_e; including every error.", "quantifier": "all inputs", "why_tests_cant": "All inputs.", "anchors": ["beamdesign/codecheck/as4100/S5.py:s5_11_4_V_w_Interface", "beamdesign/codecheck/as4100/S5.py:s5_11_4_V_w_Weld", "beamdesign/codecheck/as4100/S5.py:s5_11_4_V_w_CHS", "beamdesign/codecheck/as4100/S5.py:s5_11_4_V_w_Generic"]}
{"id": "C90", "title": "Euler load and Euler stress agree", "statement": "For a section with I = A r², N_euler(E, I, l) = A f_euler(E, l, r); both functions are defined for the same lengths.", "quantifier": "all inputs", "why_tests_cant": "All reals.", "anchors": ["beamdesign/codecheck/as4100/S6.py:f_euler", "beamdesign/codecheck/as4100/S6.py:N_euler"]}
{"id": "C91", "title": "Stronger steel never lowers the compression capacity", "statement": "With everything else fixed, N_c returned by s6_1_1_Nc does not decrease when the yield stress increases.", "quantifier": "all sections, lengths, flags, yield stresses", "why_tests_cant": "All reals. (Violated at the λ_c = 1.5 switch of the torsional mode, by less than 0.1 %.)", "anchors": ["beamdesign/codecheck/as4100/S6.py:s6_1_1_Nc", "beamdesign/codecheck/as4100/S6.py:s6_3_3_N_c", "beamdesign/codecheck/as4100/S6.py:s6_3_3_N_c_torsion"]}
{"id": "C92", "title": "The compression capacity does not depend on the units", "statement": "Multiplying every length by k and every stress by s multiplies every capacity in the result of s6_1_1_Nc by s k² and changes no slenderness, factor or error.", "quantifier": "all sections, k > 0, s > 0", "why_tests_cant": "All reals. (Violated for sections without a symmetry: a coefficient of the cubic in f_oc_unsymmetric is dimensionally inconsistent; an angle given in mm has no result.)", "anchors": ["beamdesign/codecheck/as4100/S6.py:s6_1_1_Nc", "beamdesign/codecheck/as4100/S6.py:f_oc_unsymmetric"]}
{"id": "C93", "title": "Bending and shear factors do not depend on the units", "statement": "Multiplying every length by k and every stress by s multiplies M_o by s k³ and leaves α_s, α_v and k_t unchanged, errors included.", "quantifier": "all inputs, k > 0, s > 0", "why_tests_cant": "All reals.", "anchors": ["beamdesign/codecheck/as4100/S5.py:s5_6_1_M_o", "beamdesign/codecheck/as4100/S5.py:s5_6_α_s", "beamdesign/codecheck/as4100/S5.py:s5_11_5_α_v", "beamdesign/codecheck/as4100/S5.py:s5_6_3_k_t"]}
{"id": "C94", "title": "A code check object follows its beam", "statement": "After any history of assignments to public attributes of the materials, sections, elements, lists and dicts involved, every query on an AS4100 object answers as it would on an AS4100 object made now for the same beam with the same factors.", "quantifier": "all histories of assignments, all queries, any arithmetic", "why_tests_cant": "Histories are unbounded. (Violated: the AS4100 sections are wrapped once, in the constructor; after element.section = ... the old section is rated; after appending to the list of elements, IndexError.)", "anchors": ["beamdesign/codecheck/as4100/as4100.py:AS4100.__init__", "beamdesign/codecheck/as4100/as4100.py:AS4100.as4100_sections", "beamdesign/codecheck/as4100/as4100.py:AS4100.Nty"]}
{"id": "C95", "title": "Only steel is rated to AS4100", "statement": "Whenever a query on an AS4100 object rates a section, that section is of steel.", "quantifier": "all histories of assignments", "why_tests_cant": "Histories are unbounded. (Violated: the material type is only checked in the constructor.)", "anchors": ["beamdesign/codecheck/as4100/as4100_sect_props.py:AS4100Section.__init__", "beamdesign/codecheck/as4100/as4100.py:AS4100.tension_capacity"]}
{"id": "C96", "title": "A Beam stays consistent", "statement": "After any history of assignments, a Beam still has at least one element and all its elements the same load cases, so every load case it lists can be queried.", "quantifier": "all histories of assignments", "why_tests_cant": "Histories are unbounded. (Violated: the Beam keeps the caller's list, an Element the caller's dict, and both are handed out.)", "anchors": ["beamdesign/beam.py:Beam.__init__", "beamdesign/beam.py:Beam.elements", "beamdesign/beam.py:Beam._check_elements"]}
{"id": "C97", "title": "Edits elsewhere have no effect", "statement": "Assignments to objects that a code check (or beam) does not refer to - other materials, sections, elements, lists, dicts - change none of its answers.", "quantifier": "all histories of assignments, all queries, any arithmetic", "why_tests_cant": "Histories are unbounded; rules out hidden sharing.", "anchors": ["beamdesign/codecheck/as4100/as4100.py:AS4100", "beamdesign/beam.py:Beam"]}
{"id": "C98", "title": "Elements and circles are refused exactly for negative sizes", "statement": "Element(length=l) raises ElementLengthError exactly when l < 0 (None and 0 are accepted) and Circle(radius=r) AssertionError exactly when r >= 0 does not hold; otherwise the attributes are those given.", "quantifier": "all numbers, including ints, zeros, infinities and NaN", "why_tests_cant": "All inputs.", "anchors": ["beamdesign/element.py:Element.__init__", "beamdesign/sections/circle.py:Circle.__init__"]}
{"id": "C99", "title": "Beams can be joined end to end", "statement": "A beam made of the elements of a followed by those of b reports at every position before the joint the loads and sections of a, after it those of b (positions counted from the joint), and at the joint those of both, a's first.", "quantifier": "all pairs of beams, positions, components, load cases", "why_tests_cant": "All beams with any number of elements, including elements without length.", "anchors": ["beamdesign/beam.py:Beam.get_loads", "beamdesign/beam.py:Beam.get_section", "beamdesign/beam.py:Beam.list_positions"]}
{"id": "C100", "title": "Nothing depends on the unit of length of a beam", "statement": "Giving all element lengths and positions in another unit (times k > 0) gives the same loads and sections at the corresponding positions, the same tension capacity and the same tension utilisation - for explicit positions and for min_positions, errors included.", "quantifier": "all beams, k > 0, queries", "why_tests_cant": "All reals; every outcome of every query.", "anchors": ["beamdesign/beam.py:Beam.get_loads", "beamdesign/beam.py:Beam.get_section", "beamdesign/codecheck/as4100/as4100.py:AS4100.tension_utilisation"]}
{"id": "C101", "title": "A beam can be described from either end", "statement": "Describing a beam from its other end (elements in reverse order, load tables mirrored) gives the same loads and sections at the mirrored positions, in reverse order.", "quantifier": "all beams, positions, min_positions, components", "why_tests_cant": "All reals; the order of the answer included. (Violated on elements without length whose table does not reach from 0 to 1: their local positions are shifted by 1.)", "anchors": ["beamdesign/beam.py:Beam.get_loads", "beamdesign/beam.py:Beam.list_positions"]}
{"id": "C102", "title": "The positions reported with min_positions include the extremes of every load", "statement": "For any number n >= 0, the largest and smallest value of each load component among the rows of Beam.get_loads(min_positions=n) are its largest and smallest value anywhere on the beam.", "quantifier": "all beams, load cases, components, n, positions", "why_tests_cant": "All beams and tables with any number of rows, all real positions; rests on the position list containing every stored row and every element end.", "anchors": ["beamdesign/beam.py:Beam.get_loads", "beamdesign/beam.py:Beam.list_positions", "beamdesign/loadcase.py:LoadCase.get_load"]}
{"id": "C103", "title": "The utilisation reported without positions is the worst anywhere on the beam", "statement": "tension_utilisation(load_case=c) is the largest ratio of tension to capacity over all positions of the beam and is attained; so it is the same for every number of assessment_points, and no position given explicitly has a larger one.", "quantifier": "all beams of round bars, load cases, assessment_points, positions", "why_tests_cant": "All reals; the capacity drops at the joints, so ends of elements matter as well as the positions of loads.", "anchors": ["beamdesign/codecheck/as4100/as4100.py:AS4100.tension_utilisation", "beamdesign/codecheck/codecheck.py:CodeCheck.assessment_points", "beamdesign/beam.py:Beam.list_positions"]}
{"id": "C104", "title": "The utilisation does not depend on how a beam is described", "statement": "The tension utilisation of a load case does not change when an element is cut in two or the beam is described from its other end; joining two beams gives at least the larger of their utilisations, and exactly that if both have the same capacity at the joint.", "quantifier": "all beams of round bars, load cases, numbers of assessment points", "why_tests_cant": "All reals; at a joint the loads of both elements meet the smaller of both capacities.", "anchors": ["beamdesign/codecheck/as4100/as4100.py:AS4100.tension_utilisation", "beamdesign/beam.py:Beam.list_positions", "beamdesign/codecheck/as4100/as4100.py:AS4100.tension_capacity"]}
{"id": "C105", "title": "Equal materials are interchangeable", "statement": "== on materials is an equivalence that looks at type, name, standard and every property, not at the order of properties; replacing the materials of a beam by equal ones changes neither whether it can be checked nor any capacity or utilisation; the shipped materials are equal under the same name only.", "quantifier": "all materials, beams, positions; exact numbers and doubles", "why_tests_cant": "All dictionaries and all beams; transitivity and interchangeability relate several objects.", "anchors": ["beamdesign/materials/material.py:Material.__eq__", "beamdesign/codecheck/as4100/as4100.py:AS4100.tension_capacity", "beamdesign/codecheck/as4100/as4100.py:AS4100.tension_utilisation"]}
{"id": "C106", "title": "The pin connection rules agree with each other and each has its default factor", "statement": "Every pin rule (s7_5_a-c) can be called without its factor; for a member sized for N_t, the area asked for beyond the hole carries the factor times N_t (default 1) and the area across it the factor times N_t (default 1.33); the thickness rule accepts exactly the edge distances up to thickness / factor.", "quantifier": "all areas, forces, strengths, factors", "why_tests_cant": "All reals. (Violated: in s7_5_a_min_thickness the factor 0.25 is written as an annotation, so the argument has no default.)", "anchors": ["beamdesign/codecheck/as4100/S7.py:s7_5_a_min_thickness", "beamdesign/codecheck/as4100/S7.py:s7_5_b_A_beyond", "beamdesign/codecheck/as4100/S7.py:s7_5_c_A_perp", "beamdesign/codecheck/as4100/S7.py:s7_1_A_reqd"]}
{"id": "C107", "title": "The default reference stress is the same everywhere", "statement": "Functions that take a reference stress give consistent results when all are called with their default and the strength in Pa, the unit of the shipped materials.", "quantifier": "all plates", "why_tests_cant": "All reals. (Violated: the plate functions default to 250, the compression functions to 250e6; a slender plate loses 99.9 % of its effective area.)", "anchors": ["beamdesign/codecheck/as4100/as4100_sect_props.py:s6_2_λ_e_flatplate", "beamdesign/codecheck/as4100/as4100_sect_props.py:s6_2_A_e_flatplate", "beamdesign/codecheck/as4100/S6.py:s6_3_3_λ_n"]}
{"id": "C108", "title": "The moment capacity of a segment follows its restraints", "statement": "Going through k_t, l_e, M_o, alpha_s and M_b: the capacity of a segment exists and is positive, does not rise with its effective length, and does not fall when a partially restrained end is made fully restrained.", "quantifier": "all segments, restraint codes and sections", "why_tests_cant": "A chain of five functions over all reals and every restraint code.", "anchors": ["beamdesign/codecheck/as4100/S5.py:s5_6_3_k_t", "beamdesign/codecheck/as4100/S5.py:s5_6_3_l_e", "beamdesign/codecheck/as4100/S5.py:s5_6_1_M_o", "beamdesign/codecheck/as4100/S5.py:s5_6_α_s", "beamdesign/codecheck/as4100/S5.py:s5_6_1_Mb"]}
{"id": "C109", "title": "A single weld strength can be given as a number", "statement": "The shear capacity from welds is the same whether the strength is given as one number or as a list of parts that add up to it.", "quantifier": "all numbers, lists, first moments, inertias", "why_tests_cant": "All lists. (Violated: type(v_w) == float refuses ints and numpy floats with a TypeError.)", "anchors": ["beamdesign/codecheck/as4100/S5_Shear.py:s5_11_4_V_w_Weld"]}
{"id": "C110", "title": "The capacity of a plate through its effective area is the smaller of yield and buckling", "statement": "Effective area, form factor and section capacity chained: the capacity of a plate in compression is min(b t f_y, lambda_ey t^2 sqrt(f_y f_ref)), so it never falls with width, thickness, strength or yield slenderness limit.", "quantifier": "all plates", "why_tests_cant": "All reals; relates three functions.", "anchors": ["beamdesign/codecheck/as4100/as4100_sect_props.py:s6_2_A_e_flatplate", "beamdesign/codecheck/as4100/as4100_sect_props.py:s6_2_k_f_Form_Factor", "beamdesign/codecheck/as4100/S6.py:s6_2_A_e", "beamdesign/codecheck/as4100/S6.py:s6_2_N_s"]}
{"id": "C111", "title": "Loads do not depend on sections nor capacities on loads", "statement": "Length, ends, load cases, positions and loads of a beam do not change when its sections do, and no tension capacity changes when its loads do, errors included.", "quantifier": "all beams, queries; any arithmetic", "why_tests_cant": "All beams and queries, whatever the number type.", "anchors": ["beamdesign/beam.py:Beam.get_loads", "beamdesign/beam.py:Beam.list_positions", "beamdesign/codecheck/as4100/as4100.py:AS4100.tension_capacity"]}
{"id": "C112", "title": "Between two stored rows a load changes monotonically, also on doubles", "statement": "At positions going from one stored row to the next, the interpolated load starts from the left value in the direction of the right one and never turns back, on doubles with all their rounding.", "quantifier": "all tables of doubles, positions and load components", "why_tests_cant": "All pairs of positions and all finite doubles; rounding at each of six operations.", "anchors": ["beamdesign/loadcase.py:LoadCase.get_load", "beamdesign/utility/interp.py:multi_interp"]}
{"id": "C113", "title": "On doubles a load stays between its stored neighbours", "statement": "The load interpolated between two stored rows is between their loads.", "quantifier": "all tables of doubles, positions and load components", "why_tests_cant": "All finite doubles. (Violated: rounding can exceed the right neighbour by an ulp, e.g. 0 at 1/7 and 29 at 6/7; rows less than 1e-300 apart can give inf.)", "anchors": ["beamdesign/loadcase.py:LoadCase.get_load", "beamdesign/utility/interp.py:multi_interp"]}
{"id": "C114", "title": "Interpolated loads are accurate on doubles", "statement": "The load interpolated on doubles differs from the exact straight line through the two stored rows by at most 2^-49 of the larger load plus 2^-1073, and is finite, if the loads are at most 2^500 and the rows at least 2^-500 apart.", "quantifier": "all tables of doubles, positions and load components in that range", "why_tests_cant": "An error bound for all finite doubles; a test compares a few points with a tolerance.", "anchors": ["beamdesign/loadcase.py:LoadCase.get_load", "beamdesign/utility/interp.py:multi_interp"]}
{"id": "C115", "title": "The utilisation solver is accurate on doubles", "statement": "tension_utilisation run on doubles returns a finite number within 2^-49 (relative) of the greatest exact quotient of a reported axial load (compression counted as none) and the reported tension capacity, over the load cases and positions looked at, if each such quotient is zero or between 2^-13 and 2^20 and the capacities are between 2^-500 and 2^500.", "quantifier": "all beams, load cases and positions with finite loads in that range", "why_tests_cant": "The answer is the limit of a secant iteration in rounded arithmetic; a test compares a few results with a tolerance.", "anchors": ["beamdesign/codecheck/as4100/as4100.py:AS4100.tension_utilisation", "beamdesign/utility/solvers.py:secant"]}
{"id": "C116", "title": "The tension capacity is accurate on doubles", "statement": "phiNt run on doubles returns a finite number within 2^-50 (relative) of phi times the least exact capacity min(pi r^2 fy, pi r^2 fu kt alpha_u) of the sections considered, if all factors are between 2^-60 and 2^60.", "quantifier": "all AS4100 checks of round bars, with and without a beam or positions", "why_tests_cant": "An error bound for all doubles in the range, with the true pi; a test compares a few results with a tolerance.", "anchors": ["beamdesign/codecheck/as4100/as4100.py:AS4100.phiNt", "beamdesign/codecheck/as4100/as4100.py:AS4100.Nty", "beamdesign/codecheck/as4100/as4100.py:AS4100.Ntu", "beamdesign/sections/circle.py:Circle.area"]}
{"id": "C117", "title": "A design check is accurate on doubles", "statement": "tension_utilisation run on doubles is within 2^-48 (relative) of the greatest exact quotient of an axial load and the exact design capacity phi min(pi r^2 fy, pi r^2 fu kt alpha_u) at its position, under the ranges of C115 and C116.", "quantifier": "all beams of round bars, load cases and positions in that range", "why_tests_cant": "Errors of the capacity formula and of the solver combine; no finite set of cases bounds them for all inputs.", "anchors": ["beamdesign/codecheck/as4100/as4100.py:AS4100.tension_utilisation", "beamdesign/codecheck/as4100/as4100.py:AS4100.phiNt", "beamdesign/utility/solvers.py:secant"]}
{"id": "C118", "title": "Tension formulas are accurate on doubles", "statement": "s7_1_N_t and s7_1_A_reqd run on doubles return, in each of their six numeric entries, a finite number within 2^-50 (relative) of the exact value, if all inputs are between 2^-60 and 2^60; s7_1_A_reqd does not fail.", "quantifier": "all areas, loads, strengths and factors in that range", "why_tests_cant": "A bound on the combined rounding of every entry for all doubles; tests compare a few results with a tolerance.", "anchors": ["beamdesign/codecheck/as4100/S7.py:s7_1_N_t", "beamdesign/codecheck/as4100/S7.py:s7_1_A_reqd", "beamdesign/codecheck/as4100/S7.py:s7_2_N_t_yield", "beamdesign/codecheck/as4100/S7.py:s7_2_N_t_ultimate", "beamdesign/codecheck/as4100/S7.py:s7_2_Ag", "beamdesign/codecheck/as4100/S7.py:s7_2_An"]}
{"id": "C119", "title": "Shear formulas are accurate on doubles", "statement": "For inputs between 2^-60 and 2^60 the web shear capacities (generic, CHS, interface) are within 2^-51 to 2^-50 of the exact values, alpha_v within 2^-47 on both sides of the slenderness limit, alpha_vma within 2^-50, and a group of n welds within (n+2) 2^-52.", "quantifier": "all inputs in that range, up to 400 welds, every power function with an error of at most four units", "why_tests_cant": "Includes the inputs next to the slenderness limit, where rounding decides the branch.", "anchors": ["beamdesign/codecheck/as4100/S5_Shear.py:s5_11_4_V_w_Generic", "beamdesign/codecheck/as4100/S5_Shear.py:s5_11_4_V_w_CHS", "beamdesign/codecheck/as4100/S5_Shear.py:s5_11_4_V_w_Interface", "beamdesign/codecheck/as4100/S5_Shear.py:s5_11_4_V_w_Weld", "beamdesign/codecheck/as4100/S5_Shear.py:s5_11_5_α_v", "beamdesign/codecheck/as4100/S5_Shear.py:s5_11_3_α_vma"]}
{"id": "C120", "title": "Bending formulas are accurate on doubles", "statement": "For inputs between 2^-60 and 2^60 (moments of either sign; some quarter-point moments, the warping constant and beta_x may vanish) M_s, M_b and l_e are within 2^-51 of the exact values, alpha_m within 2^-49, k_t and M_o within 2^-48, and none fails.", "quantifier": "all inputs in that range, every restraint code, every power function with an error of at most four units", "why_tests_cant": "Bounds for all doubles, against the true pi and true roots.", "anchors": ["beamdesign/codecheck/as4100/S5.py:s5_2_M_s", "beamdesign/codecheck/as4100/S5.py:s5_6_1_M_o", "beamdesign/codecheck/as4100/S5.py:s5_6_1_α_m", "beamdesign/codecheck/as4100/S5.py:s5_6_3_k_t", "beamdesign/codecheck/as4100/S5.py:s5_6_3_l_e", "beamdesign/codecheck/as4100/S5.py:s5_6_1_Mb"]}
{"id": "C121", "title": "Compression formulas are accurate on doubles", "statement": "For inputs between 2^-60 and 2^60 the products A_e, N_s, l_e are within 2^-52 of the exact values, N_euler, f_euler and r_ol within 2^-50, lambda_n within 2^-49 and f_euler_torsion within 2^-48.", "quantifier": "all inputs in that range, every power function with an error of at most four units", "why_tests_cant": "Bounds for all doubles, against the true pi and true roots.", "anchors": ["beamdesign/codecheck/as4100/S6.py:s6_2_A_e", "beamdesign/codecheck/as4100/S6.py:s6_2_N_s", "beamdesign/codecheck/as4100/S6.py:N_euler", "beamdesign/codecheck/as4100/S6.py:f_euler", "beamdesign/codecheck/as4100/S6.py:r_ol", "beamdesign/codecheck/as4100/S6.py:f_euler_torsion", "beamdesign/codecheck/as4100/S6.py:s6_3_3_λ_n"]}
{"id": "C122", "title": "A member sized for a load carries it, on doubles", "statement": "On doubles, the capacity phiN computed by s7_1_N_t for the area phiA computed by s7_1_A_reqd is at least the load the area was computed for.", "quantifier": "all loads, strengths and factors between 2^-60 and 2^60", "why_tests_cant": "Whether rounding loses a unit depends on the digits of every input. (Violated: 11000 on fy = 250, fu = 410 gives 10999.999999999998; the capacity is always within 2^-49 of the load.)", "anchors": ["beamdesign/codecheck/as4100/S7.py:s7_1_A_reqd", "beamdesign/codecheck/as4100/S7.py:s7_1_N_t"]}
{"id": "C123", "title": "The slenderness factor of a beam is positive on doubles", "statement": "s5_6_alpha_s run on doubles returns a positive number for all M_s, M_o between 2^-60 and 2^60.", "quantifier": "all ratios M_s / M_o in that range, every power function with an error of at most four units", "why_tests_cant": "The factor is a difference of nearly equal numbers for slender beams; only an analysis shows how much survives. (Violated: 0.0 for M_s / M_o = 2^27; the error is at most 2^-49 (1 + M_s / M_o), and the result positive and within 2^-28 up to a ratio of 1024.)", "anchors": ["beamdesign/codecheck/as4100/S5.py:s5_6_α_s"]}
{"id": "C124", "title": "The member slenderness factor is accurate on doubles", "statement": "alpha_c computed by s6_3_3_alpha_c on doubles is within 2^-36 of the exact factor for every positive slenderness, and N_c computed by s6_3_3_N_c within 2^-36 of the section capacity.", "quantifier": "all positive slendernesses, -1 <= alpha_b <= 1, every power function with an error of at most four units", "why_tests_cant": "Seven chained operations with two cancellations; a tolerance in a test covers only the slendernesses tested. (Violated: a slenderness of 1e-8 gives alpha_c = 0.0 instead of 1. Proved for slendernesses up to 1000 that leave the slenderness lambda of the formula at least 1, which covers 13.5 to 1000 for every alpha_b, 7 to 1000 for alpha_b up to 0.8 and 1 to 1000 for alpha_b up to 0; for N_c from the section and the length on.)", "anchors": ["beamdesign/codecheck/as4100/S6.py:s6_3_3_α_c", "beamdesign/codecheck/as4100/S6.py:s6_3_3_N_c", "beamdesign/codecheck/as4100/S6.py:s6_3_3_λ_n"]}
{"id": "C125", "title": "The torsion check gives a capacity for every doubly symmetric column, on doubles", "statement": "s6_1_1_Nc with calc_torsion on doubles returns a capacity for every doubly symmetric column of ordinary dimensions, and the stress f_oxz it uses is close to the exact coupled buckling stress.", "quantifier": "all sections and lengths between 2^-60 and 2^60, slendernesses from 13.5 to 1000, every power function with an error of at most four units", "why_tests_cant": "f_oxz takes the root of a difference that vanishes where the stresses in bending and in torsion agree; no sample of sections settles what rounding does there. (Violated: r_x = 0.0891, r_y = 0.0517, A = 0.00762, J = 1.27835e-06, l = 3.52, E = 200e9, G = 80e9 gives the root of a negative number, so a complex stress and a TypeError. It can only happen for stresses within a thousandth of each other; else f_oxz is within 2^-35 of their sum.)", "anchors": ["beamdesign/codecheck/as4100/S6.py:f_oxz", "beamdesign/codecheck/as4100/S6.py:f_oc_double_symmetric", "beamdesign/codecheck/as4100/S6.py:s6_1_1_Nc"]}
{"id": "C126", "title": "The torsional capacity is accurate on doubles", "statement": "For inputs between 2^-60 and 2^60 the slenderness, nominal stress and capacity that s6_3_3_N_c_torsion computes from an elastic stress are finite; the slenderness is within 2^-50 of the exact value, stress and capacity within 2^-11, and within 2^-48 if the slenderness is not within 2^-49 of 1.5.", "quantifier": "all areas, yield and elastic stresses and uncertainty factors in that range, every power function with an error of at most four units", "why_tests_cant": "The formula jumps at the slenderness 1.5, where rounding decides the branch: the size of the jump bounds the error, which a test would have to hit.", "anchors": ["beamdesign/codecheck/as4100/S6.py:s6_3_3_N_c_torsion"]}
{"id": "C127", "title": "The compression capacity is accurate on doubles", "statement": "Every capacity in the result of s6_1_1_Nc on doubles is within 2^-36 of the section capacity N_s of its exact value without the torsion check; with it, for sections with an axis or point of symmetry and separate elastic stresses, N_cz and N_c are within 2^-10 N_s, and within 2^-22 N_s if the torsional slenderness is not within 2^-20 of 1.5. The design capacities are as accurate.", "quantifier": "all sections, lengths and factors between 2^-60 and 2^60, slendernesses up to 1000 that leave the slenderness lambda of the formula at least 1, -1 <= alpha_b <= 1, every power function with an error of at most four units", "why_tests_cant": "An error bound through some sixty chained operations with cancellations, minima and a discontinuity.", "anchors": ["beamdesign/codecheck/as4100/S6.py:s6_1_1_Nc", "beamdesign/codecheck/as4100/S6.py:s6_3_3_N_c", "beamdesign/codecheck/as4100/S6.py:s6_3_3_N_c_torsion", "beamdesign/codecheck/as4100/S6.py:f_oxz"]}
{"id": "C128", "title": "Plate and CHS formulas are accurate on doubles", "statement": "For inputs between 2^-60 and 2^60 the functions of as4100_sect_props run on doubles do not fail and are close to the exact values: the slenderness of a plate within 2^-50, of a CHS within 2^-51, the effective width within 2^-51, the effective diameter and the effective area of a plate within 2^-49, the form factor within 2^-52.", "quantifier": "all widths, thicknesses, diameters, strengths and limits in that range, every power function with an error of at most four units", "why_tests_cant": "Bounds for all doubles, including those next to the yield limit where rounding decides which term is least.", "anchors": ["beamdesign/codecheck/as4100/as4100_sect_props.py:s6_2_λ_e_flatplate", "beamdesign/codecheck/as4100/as4100_sect_props.py:s6_2_λ_e_CHS", "beamdesign/codecheck/as4100/as4100_sect_props.py:s6_2_b_e_flatplate", "beamdesign/codecheck/as4100/as4100_sect_props.py:s6_2_d_e_CHS", "beamdesign/codecheck/as4100/as4100_sect_props.py:s6_2_A_e_flatplate", "beamdesign/codecheck/as4100/as4100_sect_props.py:s6_2_k_f_Form_Factor"]}
{"id": "C129", "title": "Caps hold on doubles without tolerance", "statement": "On doubles, N_c in the result of s6_1_1_Nc is exactly the least of the capacities present and phiN_c the least of the design capacities; no member capacity exceeds N_s; N and phiN of s7_1_N_t are the least of their terms; effective widths and diameters never exceed the gross ones and alpha_m never its maximum.", "quantifier": "all inputs, all power functions and root finders, results infinite or finite, whenever the capacities present are floats other than NaN", "why_tests_cant": "Exact comparisons of rounded numbers: phi times a minimum against a minimum of products, for all doubles.", "anchors": ["beamdesign/codecheck/as4100/S6.py:s6_1_1_Nc", "beamdesign/codecheck/as4100/S7.py:s7_1_N_t", "beamdesign/codecheck/as4100/as4100_sect_props.py:s6_2_b_e_flatplate", "beamdesign/codecheck/as4100/as4100_sect_props.py:s6_2_d_e_CHS", "beamdesign/codecheck/as4100/S5.py:s5_6_1_α_m"]}
{"id": "C130", "title": "Rounding never reverses the order of designs", "statement": "On doubles, without tolerance: more area or strength never lowers a tension, shear, section bending or section compression capacity, more load never lowers the required area, a longer or less stiff column never has a higher Euler load or stress, more slenderness never widens a plate's effective width, more uneven shear never raises alpha_vma.", "quantifier": "all floats other than NaN that are not negative, infinities and subnormal numbers included, all arguments changing together", "why_tests_cant": "Monotonicity of composed rounded operations over the whole range of doubles, overflow and underflow included; a test compares a few pairs.", "anchors": ["beamdesign/codecheck/as4100/S7.py:s7_1_N_t", "beamdesign/codecheck/as4100/S7.py:s7_1_A_reqd", "beamdesign/codecheck/as4100/S5_Shear.py:s5_11_4_V_w_Generic", "beamdesign/codecheck/as4100/S5_Shear.py:s5_11_4_V_w_CHS", "beamdesign/codecheck/as4100/S5_Shear.py:s5_11_4_V_w_Interface", "beamdesign/codecheck/as4100/S5_Shear.py:s5_11_4_V_w_Weld", "beamdesign/codecheck/as4100/S5_Shear.py:s5_11_3_α_vma", "beamdesign/codecheck/as4100/S5.py:s5_2_M_s", "beamdesign/codecheck/as4100/S5.py:s5_6_1_Mb", "beamdesign/codecheck/as4100/S5.py:s5_6_3_l_e", "beamdesign/codecheck/as4100/S6.py:s6_2_N_s", "beamdesign/codecheck/as4100/S6.py:N_euler", "beamdesign/codecheck/as4100/S6.py:f_euler", "beamdesign/codecheck/as4100/as4100_sect_props.py:s6_2_b_e_flatplate", "beamdesign/codecheck/as4100/as4100_sect_props.py:s6_2_λ_e_CHS", "beamdesign/codecheck/as4100/as4100_sect_props.py:s6_2_k_f_Form_Factor"]}
{"id": "C131", "title": "Element ends are accurate on doubles", "statement": "On doubles, Beam.element_ends and Beam.length do not fail, and each end and the length is within one half unit in the last place per element summed of the exact sum of the lengths.", "quantifier": "all beams of up to 2^26 elements, all lengths that are doubles (zero included), total at most 2^1000", "why_tests_cant": "The error grows with the number of elements; the bound is for every number of elements and every combination of lengths.", "anchors": ["beamdesign/beam.py:Beam.element_ends", "beamdesign/beam.py:Beam.length"]}
{"id": "C132", "title": "Positions convert accurately on doubles", "statement": "On doubles, beam_to_local_position gives the local position which, on the exact beam, is the position asked for up to i + 4 half units in the last place of the far end of element i; local_to_beam_position is as accurate, and there and back differs from the start by at most 2i + 8 half units.", "quantifier": "all ordinary beams (C131), elements by positive or negative index, positions and local positions", "why_tests_cant": "A bound through subtraction, division, multiplication and the summed ends for every element of every beam; tests compare sample conversions.", "anchors": ["beamdesign/beam.py:Beam.beam_to_local_position", "beamdesign/beam.py:Beam.local_to_beam_position"]}
{"id": "C133", "title": "Loads along a beam are accurate on doubles", "statement": "On doubles, every load that Beam.get_loads reports is within 2^-49 of the greatest stored load of a load that some element's exact table (stored row, or the straight line between rows) has at the place of the position; for a single position, every load that an element reaching the position has there is reported.", "quantifier": "all ordinary beams (C131), tables of doubles with positions equal or 2^-500 apart, positions and numbers of positions, any argsort order of equal keys", "why_tests_cant": "Soundness and completeness of a report, rounding included, over all tables; errors of the position carry over only through the place, not the load.", "anchors": ["beamdesign/beam.py:Beam.get_loads", "beamdesign/element.py:Element.get_loads", "beamdesign/loadcase.py:LoadCase.get_load"]}
{"id": "C134", "title": "The tension check is accurate against the stored loads, on doubles", "statement": "On doubles, tension_utilisation is, up to (2^-47 Y + 2^-1072) / (phi C), the quotient of a load stored (or on the line between stored ones) in the tables and the exact design capacity at its position, and no such load of any load case, position and element has a greater quotient beyond that error; Y is the greatest stored load.", "quantifier": "all beams of round bars, load cases and positions under the ranges of C117 and C133", "why_tests_cant": "From the input tables to the answer in one statement: summed lengths, interpolation, capacity formula, minimum, secant solver and maximum.", "anchors": ["beamdesign/codecheck/as4100/as4100.py:AS4100.tension_utilisation", "beamdesign/codecheck/as4100/as4100.py:AS4100.phiNt", "beamdesign/beam.py:Beam.get_loads", "beamdesign/loadcase.py:LoadCase.get_load", "beamdesign/utility/solvers.py:secant"]}
{"id": "C135", "title": "The tension check does not depend on units", "statement": "Stating section lengths in another unit (factor k), strengths in another unit of stress (s) and loads in other units (per component) changes nothing but units: the constructor accepts and refuses alike, get_loads and get_section answer alike, Nty, Ntu, Nt and the design capacities are multiplied by s k^2, and with axial loads in the unit s k^2 tension_utilisation is the same number.", "quantifier": "all beams, sections, materials, load cases, positions, unit factors k, s > 0, errors included, any argsort order of equal keys", "why_tests_cant": "Relates two runs through thickness look-up, interpolation, clipping, capacity formulas and a root finder with fixed absolute bounds and tolerances; a test compares one pair of unit systems.", "anchors": ["beamdesign/codecheck/as4100/as4100.py:AS4100.tension_utilisation", "beamdesign/codecheck/as4100/as4100.py:AS4100.Nty", "beamdesign/codecheck/as4100/as4100.py:AS4100.Ntu", "beamdesign/codecheck/as4100/as4100.py:AS4100.phiNt", "beamdesign/codecheck/as4100/as4100_sect_props.py:AS4100Section._get_f", "beamdesign/codecheck/codecheck.py:CodeCheck.get_tension", "beamdesign/beam.py:Beam.get_loads"]}
{"id": "C136", "title": "What load cases and beams list is what they answer for", "statement": "get_load at load_positions returns the stored table row by row in the stored order, _get_input_loads is the single-component answer and num_positions its length; no_elements, sections and element_ends have one entry per element; no_load_cases counts load_cases, which are those of every element; a listed load case is never refused with KeyError, and an unlisted one never gets loads and is a KeyError for every position on the beam and every min_positions >= 0.", "quantifier": "all tables and beams, any numbers (doubles without NaN included), all queries", "why_tests_cant": "Agreement of counts, listings and queries over all objects; the fast path of get_load at the stored positions must keep rows of equal position in order for every table.", "anchors": ["beamdesign/loadcase.py:LoadCase._get_input_loads", "beamdesign/loadcase.py:LoadCase.num_positions", "beamdesign/loadcase.py:LoadCase.get_load", "beamdesign/beam.py:Beam.no_elements", "beamdesign/beam.py:Beam.no_load_cases", "beamdesign/beam.py:Beam.load_cases", "beamdesign/beam.py:Beam.get_loads"]}
{"id": "C137", "title": "A load case can be replaced by a table of its own answers", "statement": "The result of get_load for all components, with a minimum number of positions or at any list of positions in [0,1] that includes the stored ones, is accepted by the LoadCase constructor, and the new load case answers every query by position and component as the old one does (all rows at a jump in their order, interpolated values between rows, rows at positions outside the table); repeating the query on it returns the same result. Sampled at any positions, it agrees with the old one at these positions.", "quantifier": "all accepted non-empty tables, numbers of positions, lists of positions in [0,1], queries, any argsort order of equal keys; exact arithmetic", "why_tests_cant": "Round trip between the output format of get_load and the input format of the constructor, through the interpolation of interpolated rows, at all positions at once.", "anchors": ["beamdesign/loadcase.py:LoadCase.get_load", "beamdesign/loadcase.py:LoadCase._set_loads", "beamdesign/loadcase.py:LoadCase.list_positions", "beamdesign/utility/interp.py:multi_interp"]}
{"id": "C138", "title": "Equivalent load tables are interchangeable in a beam", "statement": "Replacing the load tables of a beam by tables that answer queries alike (such as those of C137) changes neither what get_loads returns at given positions nor, for round bars, the utilisation without positions, whatever the number of assessment points of either.", "quantifier": "all beams with known lengths (the tables of elements of zero length unchanged), load cases, positions, components; exact arithmetic", "why_tests_cant": "Relates the runs on two beams whose stored positions, and hence whose default positions, differ.", "anchors": ["beamdesign/beam.py:Beam.get_loads", "beamdesign/beam.py:Beam.list_positions", "beamdesign/codecheck/as4100/as4100.py:AS4100.tension_utilisation"]}
{"id": "C139", "title": "Load combinations", "statement": "If load case 3 of every element is k1 times load case 1 plus k2 times load case 2, row by row, then get_loads of load case 3 is that combination of the other two results at the same positions, for every way to ask, and is refused exactly when they are; for k1, k2 >= 0 its tension utilisation, with and without positions, is at most k1 and k2 times theirs added.", "quantifier": "all beams, tables with common positions, factors, queries, numbers of assessment points; exact arithmetic", "why_tests_cant": "Superposition through interpolation, clipping of compression and the maximum over positions where the three load cases peak at different places.", "anchors": ["beamdesign/beam.py:Beam.get_loads", "beamdesign/loadcase.py:LoadCase.get_load", "beamdesign/codecheck/as4100/as4100.py:AS4100.tension_utilisation", "beamdesign/codecheck/codecheck.py:CodeCheck.get_tension"]}
{"id": "C140", "title": "More load or less capacity never lowers the utilisation", "statement": "If the tables of one beam have, row by row at the same positions, at least the loads of another beam of the same element lengths in a component, get_loads of that component reports at the same positions no smaller values, for every way to ask, and refuses alike; if also no bar has more tension capacity and phi is no greater, the tension utilisation with and without positions is no smaller.", "quantifier": "all pairs of beams, load cases, positions, numbers of assessment points; other components arbitrary; exact arithmetic", "why_tests_cant": "Order between the answers of two different beams, through interpolation, clipping and a maximum that may be reached at different positions.", "anchors": ["beamdesign/beam.py:Beam.get_loads", "beamdesign/loadcase.py:LoadCase.get_load", "beamdesign/codecheck/as4100/as4100.py:AS4100.tension_utilisation", "beamdesign/codecheck/codecheck.py:CodeCheck.get_tension"]}
{"id": "C141", "title": "The constructor accepts exactly the ordered tables of doubles", "statement": "On doubles (infinities and NaN included), LoadCase(loads) stores the table unchanged if every position compares as at least 0.0 and at most 1.0 and no position is less than an earlier one, and raises AssertionError otherwise.", "quantifier": "all tables of doubles of any number of rows, adjacent doubles, subnormal numbers, -0.0, inf and nan", "why_tests_cant": "The order is tested by rounded differences np.diff(positions) >= 0; that rounding neither hides nor creates a descent holds for all pairs of doubles.", "anchors": ["beamdesign/loadcase.py:LoadCase._set_loads"]}
{"id": "C142", "title": "At least the minimum number of positions, on doubles", "statement": "On doubles, list_positions(min_positions=n) is never refused; it returns at least n strictly ascending positions in [0, 1]: every stored position and every evenly spaced point i/(n-1) up to 2^-51, and nothing else.", "quantifier": "all well-formed tables of doubles, 0 <= n <= 2^52", "why_tests_cant": "The code asserts that the set of positions has n elements: rounding must never make two of the points of np.linspace equal, or push one beyond 1, for any n.", "anchors": ["beamdesign/loadcase.py:LoadCase.list_positions"]}
{"id": "C143", "title": "A table of answers gives the same answers bit for bit", "statement": "On doubles, the result of get_load for all components, with a minimum number of positions or at a list of positions in [0, 1], is accepted by the constructor; the new load case answers queries at the reported positions bit for bit as the old one, and the same query on it returns the same result.", "quantifier": "all well-formed non-empty tables of doubles (loads may be infinite or nan), 0 <= n <= 2^52, lists of positions, component selections, any argsort order of equal keys", "why_tests_cant": "Round trip with rounded interpolated rows, jumps, 0.0 and -0.0; positions are matched by equality of doubles.", "anchors": ["beamdesign/loadcase.py:LoadCase.get_load", "beamdesign/loadcase.py:LoadCase._set_loads", "beamdesign/loadcase.py:LoadCase.list_positions", "beamdesign/utility/interp.py:multi_interp"]}
{"id": "C144", "title": "Bisection ends on doubles", "statement": "On doubles, bisection needs at most N iterations whenever the distance of the guesses is at most 1.9^N times the tolerance, for any function; the default limit of 20000 iterations is never reached (1800 suffice for all guesses and tolerances), and guesses with function values of opposite sign always give a result.", "quantifier": "all functions (answers of any kind inside the bracket), all finite guesses and tolerances of at least 2^-500", "why_tests_cant": "Termination of a floating-point loop: rounded midpoints may stop moving and the relative tolerance of isclose must then apply; no test covers all magnitudes of the guesses.", "anchors": ["beamdesign/utility/solvers.py:bisection"]}
{"id": "C145", "title": "What bisection returns on doubles is a change of sign", "statement": "On doubles, a result of bisection is a point where the function is within the tolerance of zero, or lies between two points of the bracket that are as close as isclose demands and where the function has opposite signs or is within the tolerance; guesses of the same sign beyond the tolerance are refused with ValueError.", "quantifier": "all finite-valued functions, finite guesses, positive tolerances, iteration limits", "why_tests_cant": "The sign test multiplies two rounded function values, which may underflow; whether it can mistake equal signs for opposite ones depends on all pairs of doubles. (Violated: with a tolerance of 2^-700 and a function equal to 2^-600 everywhere the product underflows to zero and a root is reported; proved for tolerances of at least 2^-500.)", "anchors": ["beamdesign/utility/solvers.py:bisection"]}
{"id": "C146", "title": "A check over several load cases and positions is the worst of the separate checks", "statement": "If tension_utilisation answers for every load case and position of two lists with a number other than nan, then for the lists together it answers with one of these answers, and none of them is larger; a refusal for the lists is that of one of the separate checks; fewer load cases and positions, in any order and with repetitions, never give more.", "quantifier": "all checks, beams, lists of load cases and positions, Python ints and floats (inf, nan, -0.0) as well as exact arithmetic, any argsort order of equal keys", "why_tests_cant": "Relates one run with nested loops, loop-carried positions and a running maximum over rounded root-finder results to all the separate runs.", "anchors": ["beamdesign/codecheck/as4100/as4100.py:AS4100.tension_utilisation"]}
{"id": "C147", "title": "Beams and their queries fail only with a BeamError", "statement": "Constructing an Element or a Beam fails only with an ElementError; get_loads, list_positions, get_section and the conversions between positions along the beam and along an element fail only with an exception that `except BeamError` catches.", "quantifier": "all inputs of the constructors; all beams of known lengths, stored load cases, positions (inf and nan included), component selections, numbers of positions, Python ints and floats, any argsort order of equal keys", "why_tests_cant": "That no other exception can escape from any of the calls behind a query is a statement about all paths through them. (Violated: a position that is an int raises TypeError, a negative number of positions ValueError, an unknown load case KeyError, a table out of order AssertionError; proved for load cases that every element stores with a non-empty table, positions that are not an int, numbers that are not negative.)", "anchors": ["beamdesign/utility/exceptions.py:BeamError", "beamdesign/beam.py:Beam.get_loads", "beamdesign/beam.py:Beam.list_positions", "beamdesign/beam.py:Beam.get_section", "beamdesign/beam.py:Beam._check_elements", "beamdesign/element.py:Element.__init__"]}
{"id": "C148", "title": "Code checks fail only with the library's own exceptions", "statement": "Constructing a code check of round bars fails only with a CodeCheckError, and tension_utilisation fails only with an exception that `except BeamDesignError` catches, whatever the numbers in tables, lengths, radii and materials.", "quantifier": "all beams of round bars whose materials have tables of strengths, load cases, float positions, Python floats with inf and nan", "why_tests_cant": "Every path through section look-up, strengths, loads, clipping and the root finder, with all combinations of inf and nan. (Violated: when the search for the load factor gives up, the check raises ValueError, for instance for a force of 1e-10 N; proved that nothing besides a BeamDesignError and ValueError escapes.)", "anchors": ["beamdesign/utility/exceptions.py:BeamDesignError", "beamdesign/codecheck/as4100/as4100.py:AS4100.tension_utilisation", "beamdesign/codecheck/as4100/as4100.py:AS4100.tension_capacity", "beamdesign/utility/solvers.py:secant"]}
{"id": "C149", "title": "No stored load is missed with a minimum number of positions, on doubles", "statement": "On doubles, for every stored load of every element Beam.get_loads(min_positions=n) reports a load that differs from it only by rounding, so the largest and smallest reported loads are, up to rounding, those anywhere on the beam.", "quantifier": "all ordinary beams (C131) and tables (C133), components, n up to 2^52, any argsort order of equal keys", "why_tests_cant": "Holds on the reals (C102), but on doubles a stored position is converted to a position along the beam and back, and which ones come back unchanged depends on the last bit of lengths and positions. (Violated: the conversion of 0.2 of 3.0 m comes back as 0.20000000000000004, after the jump stored at 0.2, so a stored 1000 kN is never reported; proved for tables without jumps, with the error bounded by the steepest slope times the rounding of the position.)", "anchors": ["beamdesign/beam.py:Beam.get_loads", "beamdesign/beam.py:Beam.list_positions", "beamdesign/beam.py:Beam.local_to_beam", "beamdesign/loadcase.py:LoadCase.get_load"]}
{"id": "C150", "title": "The utilisation without positions covers every load of the beam, on doubles", "statement": "On doubles, up to rounding no tension anywhere in the tables of the load case has a greater ratio to the design capacity than tension_utilisation without positions reports.", "quantifier": "all beams of round bars under the ranges of C134, load cases, any argsort order of equal keys", "why_tests_cant": "Holds on the reals (C103), fails on doubles for particular combinations of length and stored position only. (Violated: on a 3 m bar of 20 mm with 1000 kN up to a jump at 0.2 of its length the check reports 0.0, although it reports more than 12 when asked for 0.6 m; proved for tables without jumps, for the first of the load cases.)", "anchors": ["beamdesign/codecheck/as4100/as4100.py:AS4100.tension_utilisation", "beamdesign/codecheck/codecheck.py:CodeCheck.assessment_points", "beamdesign/beam.py:Beam.list_positions", "beamdesign/beam.py:Beam.local_to_beam"]}
{"id": "C151", "title": "What the secant method returns on doubles is nearly a root", "statement": "On doubles, if the values of the function at any two numbers differ by at most L times their distance (and e for the rounding of the function itself), the value at a point returned by secant is at most (2 + 1/1000) L times the distance that the tolerance or isclose allows between the last two points, plus 3 e and 2^-570.", "quantifier": "all finite-valued functions, finite guesses, tolerances between 2^-500 and 2^1000, iteration limits, with and without fallback", "why_tests_cant": "The update x3 = (x1 f2 - x2 f1)/(f2 - f1) cancels; that the loop condition keeps the rounding errors of four operations from hiding a large residual is a statement about all doubles. (Violated: the difference of values near 2^1023 of opposite sign overflows, the next point is 0.0, and it is returned although the function there is -2^1023; proved for values of magnitude up to 2^1000.)", "anchors": ["beamdesign/utility/solvers.py:secant"]}
{"id": "C152", "title": "Every call of the secant method ends in one of three ways", "statement": "On doubles, for a finite tolerance of at least zero, secant without fallback returns a finite number after at least one iteration and fewer than the limit, or raises ValueError, or passes on what the function raised: never ZeroDivisionError or UnboundLocalError; a result found within one limit is found with every greater limit, or none, with or without fallback.", "quantifier": "all functions returning doubles (inf and nan included) or raising, all finite guesses, tolerances and limits", "why_tests_cant": "The guards against inf and nan and closeness must exclude a zero divisor and an unassigned result for every combination of function values.", "anchors": ["beamdesign/utility/solvers.py:secant"]}
{"id": "C153", "title": "Results do not depend on what other threads do", "statement": "When several threads call the compression functions of S6.py at once, an outcome that a client has received is, then and at any later time, the exception that the call raises alone in a fresh interpreter, or a dictionary with the same number at every path of keys, except the entries that f_oxz and its callers write into dictionaries shared through the cache; the capacities of s6_1_1_Nc are those of the function without caches.", "quantifier": "all numbers of threads, lists of calls and arguments, all interleavings of the accesses to caches and dictionaries, calls broken off anywhere", "why_tests_cant": "Races depend on the schedule; a test sees a handful of the interleavings, and the interpreter switches threads too rarely to hit the few instructions that matter.", "anchors": ["beamdesign/codecheck/as4100/S6.py:s6_1_1_Nc", "beamdesign/codecheck/as4100/S6.py:s6_3_3_N_c_torsion", "beamdesign/codecheck/as4100/S6.py:f_oxz", "beamdesign/codecheck/as4100/S6.py:f_euler_torsion", "beamdesign/codecheck/as4100/S6.py:r_ol"]}
{"id": "C154", "title": "Intermediate results belong to the own call, with threads", "statement": "When a client receives a result, its intermediate values are those of its own call, not of a call of another thread.", "quantifier": "all numbers of threads, calls, interleavings", "why_tests_cant": "The window is the time between the last write of the own call and the return of the result. (Violated: the slenderness in the result of a doubly symmetric member is that of the check another thread made with another yield stress; proved for s6_1_1_Nc for all but seven entries of \"N_cz Intermediate\", and for all entries of point-symmetric and unsymmetric sections.)", "anchors": ["beamdesign/codecheck/as4100/S6.py:s6_3_3_N_c_torsion", "beamdesign/codecheck/as4100/S6.py:f_oxz", "beamdesign/codecheck/as4100/S6.py:f_oc_double_symmetric"]}
{"id": "C155", "title": "A call that is broken off leaves nothing behind", "statement": "After calls of any threads, any of which may have been broken off between any two accesses to caches and dictionaries (KeyboardInterrupt), s6_1_1_Nc computes the same numbers, or raises the same exception, as in a fresh interpreter.", "quantifier": "all threads, calls, schedules and interruptions", "why_tests_cant": "The interruption can come at any instruction; half-written dictionaries would be found by the next call only through the cache.", "anchors": ["beamdesign/codecheck/as4100/S6.py:s6_1_1_Nc", "beamdesign/codecheck/as4100/S6.py:f_oxz", "beamdesign/codecheck/as4100/S6.py:f_euler_torsion", "beamdesign/codecheck/as4100/S6.py:r_ol"]}
{"id": "C156", "title": "No thread waits for another", "statement": "A call of any compression function ends after at most 49 accesses of its own to caches and dictionaries, whatever other threads do meanwhile.", "quantifier": "all calls, arguments, threads and schedules", "why_tests_cant": "Absence of starvation is a statement about all schedules.", "anchors": ["beamdesign/codecheck/as4100/S6.py:s6_1_1_Nc", "beamdesign/codecheck/as4100/S6.py:s6_3_3_N_c_torsion", "beamdesign/codecheck/as4100/S6.py:f_oxz"]}
{"id": "C157", "title": "The secant method converges on convex functions", "statement": "If f has a root r >= 0, is convex from r upwards and its chords there have slope 1 or more, then secant, started from two guesses above r whose chord has slope L, returns without error and without fallback within N + 2 iterations as soon as (1 - 1/L)^N times the distance of the smaller guess from r is within the tolerance; the result is never below r and above it by at most L times the larger of the tolerance and 1e-9 times the larger guess. Without the condition on the slope it can fail although f is convex.", "quantifier": "all such functions, guesses in either order, tolerances, iteration limits above N + 2, with and without fallback (exact arithmetic)", "why_tests_cant": "Convergence is a statement about all functions of a class; a test runs a few.", "anchors": ["beamdesign/utility/solvers.py:secant"]}
{"id": "C158", "title": "The filters of the utilisation discard nothing", "statement": "The utilisation for tension is the greatest of the utilisations computed for all requested load cases and positions: the filters on position (no load case given) and on load case (no position given) after the loops never drop one, whatever the order and repetitions of load cases and positions.", "quantifier": "all beams, load cases, positions, for exact arithmetic and for Python's ints and floats (nan included)", "why_tests_cant": "A filter that drops the governing utilisation of some combination of arguments is unsafe and shows only for that combination.", "anchors": ["beamdesign/codecheck/as4100/as4100.py:AS4100.tension_utilisation"]}
{"id": "C159", "title": "Cached results on ints and doubles do not depend on history", "statement": "Whatever was called before, r_ol, f_euler_torsion and f_oxz return bit for bit what they return without caches, and so does s6_1_1_Nc.", "quantifier": "all sequences of earlier calls, all arguments: ints, floats, zeros of either sign, infinities, nan", "why_tests_cant": "A stale answer needs an earlier call whose key is equal but not identical (3 and 3.0, 0.0 and -0.0); tests start from fresh arguments and compare within a tolerance.", "anchors": ["beamdesign/codecheck/as4100/S6.py:r_ol", "beamdesign/codecheck/as4100/S6.py:f_euler_torsion", "beamdesign/codecheck/as4100/S6.py:f_oxz", "beamdesign/codecheck/as4100/S6.py:s6_1_1_Nc"]}
{"id": "C160", "title": "Missing or unknown symmetry is conservative", "statement": "Whatever axes a Symmetry object holds, the compression capacity computed with it is defined and at most the one computed with the section's own axes of symmetry.", "quantifier": "all sections whose shear centre lies on their axes of symmetry, all lengths and factors, all lists of axes (exact arithmetic)", "why_tests_cant": "symmetry.py only claims that its default 'should be conservative in most cases'; a test rates each section with the right axes.", "anchors": ["beamdesign/utility/symmetry.py:Symmetry.symmetry", "beamdesign/utility/symmetry.py:Symmetry.axes", "beamdesign/codecheck/as4100/S6.py:s6_3_3_N_c_torsion", "beamdesign/codecheck/as4100/S6.py:f_oc_single_symmetric", "beamdesign/codecheck/as4100/S6.py:f_oc_unsymmetric", "beamdesign/codecheck/as4100/S6.py:s6_1_1_Nc"]}
{"id": "C161", "title": "Answers stay short", "statement": "No query for loads or positions returns more entries than the number of positions asked for, plus the number of stored rows, plus two per element.", "quantifier": "all beams of elements with known lengths and accepted tables, all tables, all requested positions and numbers of positions (beams in exact arithmetic, tables with any numbers)", "why_tests_cant": "Sizes are compared with expected arrays for a few tables only; that the count cannot grow faster than the input is a statement about all of them.", "anchors": ["beamdesign/beam.py:Beam.list_positions", "beamdesign/beam.py:Beam.get_loads", "beamdesign/loadcase.py:LoadCase.get_load", "beamdesign/loadcase.py:LoadCase.list_positions", "beamdesign/element.py:Element.get_loads"]}
{"id": "C162", "title": "Printed forms", "statement": "Every object can be printed; each field of the printed form shows the attribute it is labelled with, and objects that differ in such an attribute print differently. Comparing the strings of Symmetry objects compares their kind of symmetry.", "quantifier": "all materials, circles, elements, beams and symmetries, all texts of numbers without a comma", "why_tests_cant": "Nothing checks the printed forms; a mislabelled field or a beam that cannot be printed shows up only in a log or a debugger.", "anchors": ["beamdesign/element.py:Element.__repr__", "beamdesign/beam.py:Beam.__repr__", "beamdesign/materials/material.py:Material.__repr__", "beamdesign/sections/circle.py:Circle.__repr__", "beamdesign/utility/symmetry.py:Symmetry.__str__", "beamdesign/utility/symmetry.py:Symmetry.__repr__"]}
