# Design

Formal model of `myoung-space-science/eprempy` (source in /repo/src/eprempy) in Coq 8.16.1,
under `rocq/theories` (logical name `Verif`).

## Method

- The model is shallow Gallina, function by function. Every definition cites the source
  lines it models; simplifications are stated in the header of the file or at the definition.
- Exceptions are values: `result A = Ok a | Raise e`. A loop without structural bound has
  fuel; running out is the separate value `Raise OutOfFuel`, and the theorems either exclude it or quantify
  over the fuel and prove that enough fuel exists.
- State (caches, registries, the disk, logs) is an explicit argument; histories are lists of
  requests, and properties of histories are proved by induction over arbitrary lists.
- Things the library does not control (what numpy's element operations compute, which factor a
  conversion has, the order of a Python set, what an external process does) are universally
  quantified parameters.
- Files: `XModel.v` (definitions only), `XSpec.v` (what the property says, independent of the
  model's helpers), `XProofs*.v` (lemmas), `XProperties*.v` (theorems `Cnn_...`, each followed by
  `Print Assumptions` and by `Example`s that show a concrete case that meets the hypotheses).
- If the code violates a property, the violation is proved with a witness (`_refuted`), and the
  largest part that holds is proved separately (`_partial`).
- `PyBase.v` fixes Python's basic values: text as lists of 8-bit characters, exact rationals
  (`Qc`) for numbers, decimal printing and reading, exceptions. `Nd.v` fixes the numpy primitives used: an array is a shape and
  an element function. `NumModel.v` fixes numpy's results with infinities and NaN over the reals.

## Trusted base

1. Coq 8.16.1's kernel (proofs also pass `coqchk`; closed computations use `vm_compute`, which
   `coqchk` redoes without the virtual machine).
2. `Print Assumptions` stands after each theorem. All theorems print *Closed under the global context*, except those over
   the real numbers, in `IntfluxProperties.v`, `DerivedProperties.v` and `DerivedProperties2.v` (`C45_*`, `C47_*`):
   these list some of the axioms of the standard library's reals,
   `ClassicalDedekindReals.sig_forall_dec`, `ClassicalDedekindReals.sig_not_dec` and
   `FunctionalExtensionality.functional_extensionality_dep`. Loading ssreflect's libraries makes tools that
   list all axioms in scope also name `Coq.ssr.ssrunder.Under_rel.*`; no theorem depends on them. No
   axiom is added here; there are no functors, no module types, no admitted proofs, no kernel flag.
3. The reading of the Python source and of CPython, numpy, scipy, pathlib and shutil recorded in the comments of the model files.
   The code was never run. Tables (`MetricTables.v`, `ParameterTables*.v`, `AtomicModel.v`) were transcribed from the source by a script.
4. Exactness: model numbers are exact; floating-point rounding, overflow and the 64-bit limits of numpy's integers are not modelled, except for
   `is_double`/`fl` in the text conversions of SymbolicModel and ParameterModel.

## What is modelled

| source (src/eprempy) | model | left out |
|---|---|---|
| symbolic/_operand, _operator, _parser, _part, _expression | SymbolicModel | formatting other than `str`, hashing, unused operators |
| aliased.py | AliasedModel | unwrapping of nested groups, `immutable` views |
| container.py | ContainerModel | iterables other than finite sequences; unhashable members |
| numeric/_index.py, numeric/_array.py | IndexModel, ArrayModel, Nd | reading from disk on first use; the `_implementation`/`_factory` registries |
| real/_array.py, base/mixins.py, real/_objects.py (comparisons) | ArrayModel, CompareModel | `round`, casts |
| numeric/_data.py (isclose), physical/_axis.py, _axis_factories.py | AxisModel | printing |
| physical/_axes.py | AxesModel | printing |
| metric/_conversions.py, _defined.py, tables of _reference.py, `metric.conversion` | MetricModel, MetricTables, UnitModel, ConvertModel, StandardModel (`standardize`) | rounding |
| metric/_units.py (creation, cache, algebra, dimensions, normal forms, & and \|) | UnitModel, UnitOpsModel, NormalizeModel, UnitEqModel | formatting |
| metric/_systems.py, _dimensions.py (Dimension.quantities) | SystemsModel | printing, `get_dimension` (same loop as the dimensions of a unit) |
| quantity/* | QuantityModel, MeasuredModel | the measured.Value types as results of arithmetic |
| measured/*, physical scalars, vectors and tensors as containers, parameter.Variable | MeasuredModel | text data, ragged lists, rounding to decimals |
| physical/_operations.py, _array.py, _object_factories.py, measured/_convert.py, _context.py | PhysicalModel, PhysFuncModel | exponents that are arrays; numpy keywords other than axis, keepdims and axes |
| parameter/_config.py, _runtime.py, _src.py, reference.json | ConfigModel, ParameterModel, ParameterTables*, SourceModel, TextModel | mode `raw` of the constants as a text |
| numeric/_mixins.py, _implementation.py | DispatchModel | __array_function__ (its effect is in PhysFuncModel), `out=` |
| numeric/_objects.py, _factory.py | FactoryModel | texts |
| numeric/_operations.py, _operators.py | OperatorsModel | keyword arguments; the fill of standard_properties() |
| cli.py | CliModel | the argument parser, the clock; the texts of single values are parameters |
| project.py, parts of paths.py | ProjectModel, RunLogModel, FsModel | command-line wrappers, messages, links, permissions, concurrent processes |
| atomic.py | AtomicModel | unit objects |
| exceptions.py | ExceptionsModel | tracebacks |
| etc.py (instances, sentinels, utilities), paths.py PathSet | EtcModel, PrintModel | `autostr(style='numpy')`, underline, strargs |
| eprem.py | EpremModel | |
| datafile/* | DatafileModel, ViewModel (views over time) | masked values, partial reads, attributes other than axes in `Axes[...]`, the exception that replaces a failed conversion |
| universal.py | UniversalModel | the texts of constants, show |
| observable/_objects.py, _interfaces.py | ObservableModel, DerivedModel, InterpModel, IntfluxModel | see C44 to C47 and C66 |
| _project_main.py, __main__.py, interfaces.py | ScriptModel, CommandModel | argparse beyond the options in use, messages |
| paths.py search, templates, lines | SearchModel | links, `~`, `..` |
| container.py Table.show | TableModel | the output stream |
| reference.py, parameter/_metadata.py | ReferenceModel | UNITS, DIMENSIONS |
| container.py hastype, find_first, distribute, Wrapper; etc.py doc2help | WrapModel | members other than numbers and texts |
| __eq__ and __hash__ of operators, terms, expressions, units, named units, dimensions, groups, sentinels | HashModel | comparisons with objects of classes not listed |
| metric/_units.py, _defined.py: `>>`, `<<` | ShiftModel | rounding |
| observable/_interfaces.py: x, y, z, magnitudes, components, angle | FormulaModel, AngleModel | rounding; divu, gradients |

## The properties: what is modelled and how it is proved

- **C01** Symbolic reduction preserves meaning. Terms are (rational coefficient, text base, rational exponent); `reduce` branch by branch. Spec: the monomial a list of terms denotes (product of coefficients; sum of exponents per base). Induction over the list, through the accumulator, the two stable sorts and the filter. Theorems: SymbolicProperties. Status: proved.
- **C02** Symbolic expressions have a canonical form. Same model. Output sorted, no repeated base, no zero exponent; lists with that shape and equal denotation are equal. Theorems: SymbolicProperties. Status: proved.
- **C03** Symbolic multiplication, division and powers obey the laws of an abelian group. Product, quotient and power as in the code: reduce, print in parentheses, parse again. Corollaries of C01, C02, C04 where the printed form carries the numbers; `_refuted` otherwise. Theorems: SymbolicProperties. Status: partial. Commutativity and a/a=1 hold for all expressions. The other laws hold when the exact results can be carried by the printed notation (one-digit denominators, double coefficients); outside that class they are false of the code and refuted with witnesses. a**0 is refuted.
- **C04** Unit strings mean what they say, and printing then parsing is the identity. Backtracking regular expressions as functions to lists of splits; find_bounds, operand and operator parsing character by character. Spec: a grammar of written expressions with a denotation, unbounded in nesting and length; induction over the syntax tree. Theorems: SymbolicProperties. Status: partial. Parsing has the usual meaning for every text of an unbounded grammar. Print-then-parse is the identity for expressions whose numbers fit the notation; it is false otherwise (a^1/12), refuted with witness.
- **C05** All aliases of an aliased-mapping entry give the same value. Mapping as ordered list of (group, value), flat dictionary built from it; whether Python's dict identifies two equal groups (hash of a set) is an arbitrary relation that implies equality. Theorems: AliasedProperties, AliasedProperties2. Status: proved. The refuted theorem records that "last given entry wins" (a stronger reading) is false for overlapping tuple keys.
- **C06** Mutable aliased mappings stay consistent under any history. State machine over set, delete, alias, group; refinement of a machine of cells by induction over histories. Theorems: AliasedProperties, AliasedProperties2. Status: partial. All histories of assignment, deletion and alias registration refine a cell machine. With key groups (MutableMapping.group) the claim is false of the code; refuted with witness.
- **C07** Alias groups never overlap. Groups as lists of name sets; disjointness as an invariant; bridging updates refuted. Theorems: AliasedProperties. Status: partial. Holds for add and for merging names that touch at most one group. False of the code for the constructor and for bridging or repeated merges; refuted with witnesses.
- **C08** Name maps resolve every reference name to its canonical name. NameMap built with the C06 machine. Theorems: AliasedProperties, ReferenceProperties. Status: proved.
- **C09** Merging ordered collections is a common supersequence or an error. merge loop by loop; spec: no repeats, members of either list, both lists as subsequences; error iff the common members are in different orders. Theorems: ContainerProperties. Status: proved. The refuted theorem records that arguments with repeats of their own give repeated results, against the docstring.
- **C10** nearest finds the closest member, on the requested side. argmin and the two bounded walks with Python's negative indices; exact rationals. Theorems: ContainerProperties. Status: proved. One-dimensional arrays of exact numbers. Descending data violate the bound; refuted with witness.
- **C11** unique keeps first occurrences in order. fold over the list. Theorems: ContainerProperties. Status: proved.
- **C12** Weighted graphs store mutually inverse edges. Edges as association list; invariant over every sequence of additions. Theorems: ContainerProperties. Status: proved. Self-loops do not satisfy it (recorded).
- **C13** Bijections invert exactly. Association lists with distinct keys. Theorems: ContainerProperties. Status: proved.
- **C14** Table lookups return exactly the matching rows. Rows as association lists; iterative call loop. Theorems: ContainerProperties. Status: partial. find and strict calls are exact. The default (iterative) call returns the only row matching a leading part of the request; it may contradict the rest of the request or fail although one row matches: refuted.
- **C15** Array-like index shifting and arithmetic stay in bounds. Integers; the dispatch of `binary` case by case. Theorems: IndexProperties. Status: partial. Shifts and entry-wise arithmetic are exact for ordered bounds; refuted: crossed bounds treat values and sequences differently, sequences of unequal length are silently truncated, and powers with two or more exponents always raise.
- **C16** Subscript normalisation agrees with array semantics. Subscript data type; expand, normalize, resolve, and numpy basic/mesh selection (Nd.v); spec: element (i1..in) of the result is the element of the array at the selected positions. Theorems: IndexProperties. Status: partial. Per-axis selection is proved for single subscripts, integer arrays, tuples of sequences/integers/whole slices and tuples of integers/plain slices; refuted: proper slices beside index sequences are ignored, negative-start slices beside integers raise, lists are read as tuples, short tuples with an integer raise.
- **C17** Restricting indices keeps bracketing points. Positions as filtered lists; spec: the tightest interval of positions that brackets every target, in every row. Theorems: IndexProperties. Status: partial. Bracketing and minimality for strictly ascending rows (1-D and 2-D along axis 1); repeated values and descending data give no indices (refuted).
- **C18** Dimension-name algebra. Name lists; set-theoretic spec with order. Theorems: ArrayProperties. Status: partial. Union, intersection, difference, replace, insert, permute and inclusion are exact. Symmetric difference always raises TypeError, and permute accepts repeated indices: both refuted.
- **C19** Named broadcasting: the product of two arrays pairs values by dimension name. Array = shape and element function; remesh as gathering by an open mesh; spec reads both operands at named coordinates. Theorems: ArrayProperties, GapProperties2. Status: partial. Pairing by name is proved for all ranks and orders with the exact condition for success; the length-one axis and default-name cases fail (refuted).
- **C20** Adding or comparing arrays never silently aligns different dimensions. Errors as values; success implies equal names. Theorems: ArrayProperties. Status: partial. Array-array addition, comparison and equality proved; array+number returns a bare numpy array without names (refuted).
- **C21** Unit conversion factors are coherent. Conversion table as weighted edges over an arbitrary set of exact factors; depth-first search with shared visited list and fuel (adequacy proved); soundness: every factor is the ratio of sizes, for any assignment of sizes that fits the table; the shipped tables are transcribed and shown to fit the SI sizes. Theorems: MetricProperties, PairingProperties, UniversalProperties. Status: partial. The string search, chains of definitions, metric prefixes and the pairing of compound factors give size ratios for every input; pairing succeeds whenever opposite powers of each kind of unit are equally many. The last route (by dimension) ignores scale and is false of the code: kN to g m s^-2, deg/s to rad/s, V to ohm are refuted with witnesses.
- **C22** Prefixed units of one base unit convert by the ratio of their prefixes. Prefixes as powers of ten; all pairs of units of one base. Theorems: MetricProperties. Status: proved. Exact rational factors; the refuted theorem records the cd (candela / centiday) symbol collision.
- **C23** Unit algebra: quantity of a product is the product of quantities. Units as term lists; valuations (dimension vectors, sizes) are homomorphisms of decomposition, product, quotient, power; the shipped tables are checked once by computation. Theorems: UnitOpsProperties, UnitOpsProperties2. Status: proved. Units over the package's own tables with half-integer exponents; powers are half-integers within 100. Refuted corners: power 0, the lux, sizes of products with Gaussian units and the farad, a dimension lost in a system.
- **C24** One unit object per distinct unit. Caches as state machines over histories of requests. Theorems: UnitProperties. Status: partial. One object per unit in every history of settled requests; unsorted compound symbols, mixed names and the first-request order break it (refuted with witnesses).
- **C25** Parsing measurable input keeps every value and the unit. Argument trees of unbounded depth; parse branch by branch; spec: a separate grammar of measurable input with its values and unit. Theorems: QuantityProperties. Status: partial. The documented forms are parsed exactly, at any nesting depth; the converse holds for regular input only, and six ways in which the code departs from the property are refutations.
- **C26** Changing the unit of a scalar or vector preserves the physical quantity. Value and unit with abstract sizes; conversion multiplies by the ratio. Theorems: PhysicalProperties. Status: proved. For scalars, vectors and tensors over any units whose conversion factors are ratios of sizes (hypothesis measures; C21/C22 say for which actual units this holds). Exact arithmetic.
- **C27** Changing the unit of a physical array preserves the physical quantity, also when repeated. Array with stored data and scale as in the code; second conversion refuted in general. Theorems: PhysicalProperties. Status: partial. A single conversion preserves the quantity. The code forgets the previous scale, so a second conversion is proved wrong at every non-zero element.
- **C28** Physical arithmetic is dimensionally sound. Dispatch per operator; spec: amounts (value times size of unit). Theorems: PhysicalExamples, PhysicalProperties, PhysicalProperties2, PhysicalProperties3. Status: partial. Sums, products, quotients, powers and comparisons of measured operands are sound. Refuted: the unit of a remainder; comparison with a plain number ignores the unit.
- **C29** Array arithmetic keeps axes and data consistent. Axes lists merged/added with data; spec: every axis has the length of its dimension. Theorems: PhysicalExamples, PhysicalProperties. Status: partial. Sums always; products exactly when no axis of the right operand is shorter than its counterpart (iff). Refuted for one-element right operands, for tensors broadcast to an array, and for the factory, which does not compare lengths.
- **C30** Axis lookups return the position of the requested coordinate. Axis kinds; index look-ups. Theorems: AxesProperties, GapProperties2. Status: partial. Look-ups by symbol, point and coordinate are characterised exactly; the claim about slices and negative integers, and requests beyond the ends with closest=, are refuted.
- **C31** Re-arranging axes loses nothing. Ordered association lists; loops of insert/replace as in the code. Theorems: AxesProperties, GapProperties2. Status: partial. before and after are swapped in insert (refuted for all axes); out-of-range locations drop the new axis; renaming onto another axis loses it; the rest holds.
- **C32** Configuration files: last assignment wins, comments never leak into values. Lines and files as character lists; universal newlines; spec: declarative reading of a line. Theorems: ConfigProperties, GapProperties2. Status: partial. Exact characterisation of every line and file, for one-character comment markers, all newline conventions, all texts. Refuted corners: a line of blanks only, or with blanks before the comment marker, is rejected instead of ignored; the order of multi-character markers matters.
- **C33** Comparing configurations reports exactly the differences. Association lists. Theorems: ConfigProperties. Status: partial. diff lists exactly the missing parameters and compare all parameters with both values; the differences are exactly the entries of compare with two different values. Neither method alone returns exactly the differences (refuted); path arguments fail without comment markers (refuted).
- **C34** Default parameter expressions evaluate to their arithmetic value. Fuelled evaluator as in the code, with the C04 parser; spec: arithmetic value of a definition; the shipped tables are transcribed. Theorems: ParameterProperties. Status: partial. Every definition built from numerals, references, constants, two-term sums and differences and products of integral powers, except literal zeros and vanishing sums inside a definition and products with vanishing factors; all defaults of the shipped table evaluate. Refuted: zeros in sums, sums of three terms, exponents with a minus sign, zero or unknown factors in constants.
- **C35** User-provided runtime parameters override defaults, and nothing else does. Dictionary updates and alias groups; all parameters of the shipped table, all settings. Theorems: ParameterRuntime. Status: partial. Proved for every parameter of the reference table and every alias. Refuted: the package's own parameter minimum_energy cannot be set; settings under an alias are ignored.
- **C36** The run log mirrors the run directories after every successful history. World = file system and project attributes; operations in a state-and-exception monad; invariant over histories. Theorems: ProjectProperties. Status: proved. At this commit new projects cannot be created (C88): C36_new_project is about creation with some text for the script, which gives the same world as opening the directory after the script was put there by hand (C88_repaired). Over every history of run/mv/rm requests (any branches, patterns, failures of the simulation and of the operating system). "Each with the contents recorded at creation" is C37 (moved/untouched are stated over whole directory contents and records).
- **C37** A failed operation on several branches never damages other runs. Effect of one request on every run, branch by branch. Theorems: ProjectProperties. Status: partial. Success and refusal are exact per branch. For a run directory without a record the move raises LogKeyError after moving and later branches are not processed: refuted with witness.
- **C38** Renaming a project keeps its history addressable. Text replacement on keys as in the code. Theorems: ProjectProperties. Status: partial. False of the code for the log: no key is ever renamed, so every record is orphaned (proved in general). Directories move whole, the attributes restore, and force never overwrites.
- **C39** A failed run leaves the project consistent. Return code of the simulation as an input. Theorems: ProjectProperties. Status: partial. A failed run has no record; moving it afterwards always raises after the move (refuted in general).
- **C40** Project attributes survive save and restore. JSON values; save and restore over histories. Theorems: ProjectProperties, ProjectProperties2, ProjectProperties3. Status: partial. At this commit creation itself fails (C88); the theorems take the composed script as a parameter. Holds for every attribute set and history unless the inputs directory is the root itself (refuted).
- **C41** Ion species names round-trip through mass and charge. Element table as data; facts about the 110 rows by computation, statements for every mass and charge. Theorems: AtomicProperties. Status: partial. Proved for every mass and charge, except that looking the symbol up again by its table mass fails for exactly five elements (Ca is read back as Ar, Co as Ni, Po as Bi, Cm as Bk, Db as Bh) and that non-integral charges are truncated when the name is built.
- **C42** Exception wrappers translate exactly the registered exceptions. Outcome type, class hierarchy as a relation. Theorems: ExceptionsProperties. Status: partial. Proved for every callable outcome, registration history and class hierarchy; refuted for Wrapper: an exception of a class derived from a registered one surfaces as a KeyError about the wrapper's own table, and arrays cannot be substitutes. The decorator convert is correct in all cases.
- **C43** Stream and observer files are located uniquely. Directory listing, wildcard matcher, order of Python sets as an argument. Theorems: EpremProperties, EpremProperties2, EpremProperties3. Status: partial. Proved for every directory listing, id and iteration order of the prefix sets. Refuted: with several kinds of files for one stream the file opened (and success) depends on the order of a Python set; names with wildcards match other files; ids of named points are truncated by lstrip, so that different points collide; one stray file makes all streams unavailable; a bare configuration name given as a Path is looked up in the current directory.
- **C44** Observable algebra agrees with array algebra. Observable = function of parsed constraints, unit, dimensions; homomorphism to physical array algebra (C28/C29). Theorems: GapProperties, ObservableProperties, ObservableProperties2. Status: partial. Sums, differences, products, quotients and unit conversions for every pair of observables whose operators yield unconverted arrays and look only at their own dimensions, every dataset and every constraint. Refuted: every observation of a power raises, and therefore every look-up by a symbolic expression.
- **C45** Derived observables satisfy the physical relations that define them. AngleModel composes the angle with the observation of ObservableModel: its axes are those of the stored array, so they fit the data exactly when everything is observed. Theorems: AngleProperties, DerivedProperties, DerivedProperties2, IntfluxProperties. Status: partial. Entry by entry over the real numbers, with infinities and NaN, without rounding, for every value. Refuted: without a magnetic field the parallel and perpendicular velocity and the angle are NaN; the average energy of an empty distribution is NaN. the observed angle carries the axes of the whole dataset whatever is asked for (C45_angle_axes_refuted).
- **C46** Observing at values off the axes is linear interpolation between the stored neighbours. interp1d as sorting and segment search over exact rationals; spec: convex combination of the two stored neighbours. Theorems: InterpProperties, InterpProperties2. Status: partial. Proved for every axis, grid of radii, table of values and list of targets, over time or over radius. Refuted: a radius that is a node of the grid at any time raises; the end points of the axis are refused next to a value off the axis; a radius outside the grid at any time raises although that time is not asked for; interpolating over time and radius together uses the radii of the first stored times, so that the result is not at the radius asked for.
- **C47** Integral flux is taken over the stored energies above the minimum, with one end point on the power law through its neighbours. Power law through the neighbouring nodes; integration rule arbitrary. Theorems: IntfluxProperties. Status: partial. Proved for every increasing positive energy grid, spectrum, minimum and rule of integration. Refuted: zero fluxes around the minimum make the result NaN; without a minimum the result is the flux below each energy, from the lowest one.
- **C48** Derived comparisons are consistent. Boolean functions derived from eq and lt. Theorems: ArrayProperties. Status: proved. For every comparable pair; the refuted theorem records that incomparable values (NaN) break the pattern.
- **C49** Transposing an array with named dimensions permutes data and names together. Named transpose and numpy.transpose. Theorems: ArrayProperties, GapProperties2. Status: partial. The named array transpose is proved; numpy.transpose(x, axes) and transposing twice by name fail (refuted).
- **C50** Named registries never lose an object. History induction with a freshness condition. Theorems: ContainerProperties. Status: partial. Holds for every history whose names do not look like name_<number>; otherwise a generated key can overwrite an object (refuted).
- **C51** Sentinel and singleton instances are unique. Tables of instances over histories of requests, classes as numbers. Theorems: EtcProperties. Status: partial. Proved over all histories for path-keyed instances and for singletons with single inheritance. Refuted: two classes sharing the metaclass share instances; a string and a Path of the same text are different keys; a derived singleton class may hand out its parent's instance; requesting a sentinel twice gives two objects; a sentinel whose value is another sentinel's name is that sentinel.
- **C52** Slices convert to the ranges they denote. Integer ranges. Theorems: ContainerProperties. Status: partial. Exact for in-range non-negative bounds and positive steps; false otherwise (refuted with witnesses).
- **C53** Parsing any string terminates. Fuel adequacy: every loop consumes input. Theorems: SymbolicProperties. Status: proved. fuel adequacy for every input string
- **C54** Unwrapping redundant nesting loses no member. Nested lists of any depth. Theorems: ContainerProperties. Status: proved.
- **C55** Reducing or squeezing a named array keeps the named coordinates of the other axes. Reduction along an axis by any function of a line; named coordinates of the others. Theorems: ArrayProperties, GapProperties2. Status: partial. squeeze, sum, mean, trapz and cumsum by name; keepdims=True always raises (refuted).
- **C57** A killed process damages at most one run record. The number of disk writes before the process is killed is an argument: a theorem for all of them is one for every crash point. Theorems: ProjectProperties. Status: partial. At every crash point, either the log is empty or at most one record is off. The first case loses all records: refuted with witness.
- **C58** No request changes anything outside the runs and the log. Frame property of every request. Theorems: ProjectProperties. Status: proved.
- **C59** A project made as a copy of another has its settings. dict.update with keywords that are all present. Theorems: ProjectProperties, ProjectProperties3. Status: partial. False of the code: the settings of a copy never depend on the original.
- **C60** Asking whether input is measurable agrees with measuring it. is_measurable against parse, over argument trees. Theorems: QuantityProperties. Status: partial. Agreement holds without numerical strings; the other cases are refuted.
- **C61** Axes are made as requested. Axes factory, case by case. Theorems: AxesProperties. Status: partial. Holds for distinct names; repeated names lose axes.
- **C62** A part of an axis remembers where its members came from. Stored index sequences of sub-axes. Theorems: AxesProperties. Status: partial. Holds for subscripts that do not count from the end, relative to the immediate parent axis.
- **C56** Transposing a physical array rearranges it and nothing else. Transposition of data and axes, without the scale as in the code. Theorems: PhysicalProperties, PhysicalProperties3. Status: partial. Exactly when the array has not been converted (scale 1) or the value is 0; after a conversion the transposed values are proved wrong.
- **C63** A part of a physical array has the selected values and the selected axis references. Subscription of data and of each axis. Theorems: PhysicalExamples, PhysicalProperties. Status: partial. One subscript per axis, in the cases covered by C16 (integers and in-range slices, or index lists with whole slices).
- **C64** Defaults that refer to other parameters follow the user's settings. The wanted value is the value of the definition (ParameterSpec) in the table in which the texts of the user replace the defaults. C64_partial: equal to the value shown when the definition can be computed from the unset parameters alone (monotonicity of definition values, by induction). Theorems: ParameterFollow, ParameterRuntime. Status: partial. Proved for definitions that can be computed without the parameters that the user set. Refuted, and thus missing: a parameter that is not set has the same value whatever the user sets (C64_same_for_all_settings_refuted, for all tables; C64_defaults_follow_settings_refuted, for the shipped tables).
- **C65** Shared helper functions behave as documented for every input. Small functions, spelled out. Theorems: EtcProperties, GapProperties. Status: partial. Proved for all inputs; refuted only for joining an empty list, which is an IndexError.
- **C66** Observing constraints select what they name. Constraint parsing and narrowing of axes in the observing context. Theorems: ConstraintProperties. Status: partial. Proved for every dataset and combination of constraints. Refuted: a shell number that does not exist selects every shell; a plain number off the axis raises although a plain number on the axis is accepted.
- **C67** numpy functions respect units and axes. PhysFuncModel gives every numpy function of physical/_operations.py over the physical objects of PhysicalModel and the named arrays of ArrayModel. Elementary functions are parameters (sin is any function); the square-root law is stated by squares. Reductions are proved from C55 through the axes that a result picks; amounts follow from linearity. Gradients use numpy's second-order formula, proved equal to weighted difference quotients. Theorems: GapProperties2, PhysFuncExamples, PhysFuncProperties, PhysFuncProperties2, PhysFuncProperties3, PhysFuncProperties4. Status: partial. Proved for arrays of every shape and for the other objects, in exact rational numbers. Refused besides: reductions of the only axis of a vector or tensor without keepdims, and an explicit axis=None, raise TypeError. Refuted: degrees are not converted to radians; no array has a minimum or maximum (TypeError); an explicit axis=None fails for arrays; keepdims=True keeps the whole axis beside data of length one; numpy.transpose(x, axes=...) reverses the data but permutes the axes; numpy.power drops the unit; integrals ignore the unit of the integration variable.
- **C68** A new run gets the configuration the user named. Same file-system model as C36: one run is followed step by step to the copied file, then an invariant over the loop (files of earlier runs and the source stay). The two hard-coded names are shown by concrete projects. Theorems: ProjectProperties2, ProjectProperties3. Status: partial. Holds for the directory called inputs in the root, in every branch, whatever else is on the disk. Refuted for a project with another inputs directory (its files are ignored) and for one with another name of the configuration file (the command still reads eprem.cfg).
- **C69** The normal form of a unit in a metric system. NormalizeModel follows get_quantity and normalize: the quantities of the terms are collected and reduced, each is looked up in the tables and raised, the product is printed and parsed. The specification is a separate reference table of canonical units (NormalizeSpec). Proved by the homomorphism laws of reduced products plus finite checks of the tables; printing and parsing by the round trip of C04. Theorems: NormalizeProperties. Status: partial. Holds for every product of powers of defined units (halves and integers of moderate size, outside the lux) whose quantities do not cancel; the dimension is kept when every unit is allowed in the system. Refuted: a ratio of two units of one quantity has no normal form (RecursionError), and a unit that is not allowed in the system changes dimension (the gauss becomes the tesla).
- **C70** Metric systems answer by quantity, dimension and unit. SystemsModel covers _systems.py (factories, look-up, get_unit, equivalence) and Dimension.quantities. Singletons by an invariant of the registry over any history; look-ups by induction over the tables with a finite check that each unit has the listed dimension; unknown names by induction on the recursion limit. Theorems: GapProperties, SystemsProperties. Status: partial. Holds for every history, name and dimension object outside four faulty MKS table entries (impedance, resistance, resistivity: the ohm cannot be written; permittivity: I instead of I^2). Refuted: unknown names give RecursionError, not a key error; dimensions given as strings are compared as text; the values of the MKS system cannot be listed.
- **C71** Reducing a named unit keeps its size. nu_reduce of MetricModel is compared with the reference sizes of MetricSizes, for the whole table of names (all prefixes) in one computation accepted by the kernel. Theorems: ReduceProperties. Status: partial. Proved for every name in the tables outside the Gaussian electromagnetic families, the farad and the lux. Refuted: the elementary charge and the lux cannot be reduced (SystemAmbiguityError, KeyError), and the reduced gauss has another size than the gauss.
- **C72** Comparing collections of axes. The orderings of AxesModel are characterised by names and by the existence of a conflicting name; proved by rewriting subset and existsb to quantified statements. Theorems: AxesProperties. Status: proved. For any equality test of single axes.
- **C73** Equivalence and consistency of units. UnitEqModel covers the operators & and | on two units, with the conversion factor as an arbitrary function (so any cache state). Sizes and dimensions are instances of one lemma about any valuation of units that respects decompositions; totality uses a table check that every unit is allowed in a system. Theorems: UnitEqProperties, UnitEqProperties2. Status: partial. Equal sizes and dimensions are proved for every way to be equivalent except the conversion factor alone (proper units, halves and integers of moderate size). Refuted with the actual conversions: deg/s & rad/s is true; Hz | s^-1 is true although the conversion raises.
- **C74** Conversions to a metric system. ConvertModel covers convert, Converter, converter_factory with its cache, _get_substitutions and _is_ambiguous over the tables; the conversion factor between two unit strings is an arbitrary function (any cache state), instantiated with the one of MetricTables for sizes. The normal-form theorem goes through the text of the quantity expression: a lemma on words in joined texts shows that the replacement of quantity names leaves it unchanged unless a mass is followed by a number, and the exponents of the parsed result are those of C69. Theorems: ConvertProperties. Status: partial. The factor is proved where the table of conversions connects the two unit strings (C21 treats the rest). Refuted: the second is ambiguous in both systems; a mass per number is not converted to its normal form (its quantity is printed as "mass number^-1" and read back as the inverse of a mass number); lumen and quotients such as m/cm raise errors of other types.
- **C75** Unit texts of EPREM output. StandardModel is standardize with its table; the meaning is that of SymbolicSpec (written expressions), obtained from the parser theorem of C04 applied to the numerator over the group of the denominator. Theorems: StandardProperties. Status: proved. The refuted theorem records what the rule does to fractional exponents, repeated divisions and variables without a unit.
- **C76** Arrays, axes and grids of a datafile. DatafileModel: a file is its variables (data, dimensions, attributes, integer or not) and dimensions; views, the viewer choice, Axes, Arrays and Grid are functions of the file over an arbitrary unit type with its parsing, equality and conversion. The element-wise statement goes through the factories of PhysicalModel; axes through squeeze (C67) and elements (C41). The instance with the actual metric package uses C74_history, so its conversions may follow any history, and a closed computation per unit text and system. Theorems: DatafileProperties, DatafileProperties2, GapProperties. Status: proved. First for any units and conversions, then with the actual tables for the units EPREM writes, after any history of conversions. Refuted theorems: the energy axis of files with several species has the number of species as its length, and has no length for one species and one energy; in a file with both, f is None although hasdist is true; speeds in cm/s and times in s cannot be read in mks.
- **C77** Reading parameters from EPREM source files. SourceModel writes the three regular expressions with the backtracking patterns of SymbolicModel. A pattern is turned into a relation (which splits are possible), the written form into the same relation, and uniqueness of the split gives the equivalence; only the blanks before a value need the order of the attempts. Files are folds over lines; the tables feed ParameterModel (C34). Theorems: GapProperties, SourceProperties, SourceProperties2. Status: proved. Each line pattern is characterised by an equivalence with a written form. Refuted theorems record limits: a comment after a constant becomes part of its value or hides the constant, lines inside block comments are read, arguments with commas are torn apart, arrays with several or negative elements are not recognized, get(format="full") raises for unknown names.
- **C78** Measured objects: making, subscripting, casting and converting. MeasuredModel: an object is its class, its data (a number or an array with a shape) and its unit, of an arbitrary type; each factory is a function of a number, array, list or object. The table effect_of in MeasuredSpec says for each pair of classes what happens to the unit, and the theorems cover the whole table. Subscripts go through IndexModel (C16); leaves and reads describe the selection independently. Rounding is specified by inequalities, with uniqueness. Theorems: MeasuredProperties, MeasuredProperties2. Status: proved. Refuted: scalars made from vectors, sequences, measurements or variables, vectors and variables made from plain sequences, and tensors made from vectors lose the unit; a sequence made from a scalar cannot be used; a value made from a (1,1) table holds an array; x[..., i] of a vector raises; an index of a variable wraps around once too often; float() of a variable takes the first of many numbers; complex() of a scalar always raises.
- **C79** The configfile command. CliModel follows cli.py line by line; the texts of single values are parameters, full paths are lists of components. Dictionaries built from lists are first occurrences; the groups are characterised by induction over the sorted names; the table by the widths; the generated text is parsed back with the lemmas of C32 and its meaning comes from C35. Theorems: CliGenerated, CliProperties, CliProperties2, CliProperties3. Status: proved. The table has equally long lines for values of at most 76 characters. Refuted: --diff on files that agree ends with StopIteration; without --diff every parameter is also printed as an empty group; a value set to its default counts as different; with --source the defaults are those of the package and new parameters raise; long values touch their labels; in a generated file seven one-element lists with units and the missing default of numNodesPerStream come back as texts.
- **C80** Numeric operators by name. OperatorsModel: operators are names with an arbitrary meaning, the table of operators and groups is that of the source; the collection is the frozen aliased mapping (AliasedModel). The frozen form is characterised for any mapping by induction over its entries, then instantiated; sets are iterated in an arbitrary order. Theorems: OperatorsProperties. Status: partial. For arbitrary meanings of the operators. Refuted, and thus missing: generate without names also yields the tuples of the groups and ignores the exclusions; excluding an alias or a group excludes nothing; calling the groups cast or math with one argument raises; the name of a group resolves to a tuple also when strict; collections made from plain mappings have no group calls.
- **C81** Custom operators and numpy functions of numeric objects. DispatchModel: classes are numbers with an order of attribute lookup; the collections are functions of their owner and key, updated by requests; a history is a fold. The general lemma is that a fold which stores or ignores keeps the last matching request; resolution of names comes from C80. Python's order of asking operands and numpy's dispatch to __array_ufunc__ are written as in their documentation. numpy's own functions are parameters. Theorems: DispatchProperties, DispatchProperties2. Status: partial. Refuted, and thus missing: a numpy function of two different arrays, if it is not a registered one, uses the data of the first twice (numpy.subtract(x, y) is zero); numpy.multiply.outer is the elementwise product; numpy functions of physical objects ignore units; a class without a collection of its own registers for its base class; an implementation of numpy.add is not an implementation of +, and asking for it by function raises KeyError.
- **C82** Factories of numeric objects. FactoryModel: factories are functions of an argument and a list of keywords; registries are functions of the class. Histories by induction from the end; the guard is an equivalence with the first keyword that is refused. Theorems: FactoryProperties. Status: proved. Refuted theorems record: returns(cls, strict=False) does not remove the restriction; a factory whose return annotation is not a class (a text or a union) cannot be called.
- **C83** The run log is a mapping on disk. RunLogModel adds the rest of RunLog to ProjectModel: values are JSON or cannot be written, source files are entries of the modelled disk, YAML is a parameter. One exact lemma on the two writes of dump; each theorem then is a fact about dictionaries. Theorems: GapProperties3, RunLogProperties. Status: partial. Proved for every contents of the file and request. Refuted, and thus missing: a value that JSON cannot represent empties the whole log; moving onto an existing record loses it; a record loaded from a file also repeats every record of the log.
- **C84** Listing, showing, resetting and removing a project. RunLogModel: listings over the modelled disk with any glob for which * matches everything. Listings through the specification of glob; reset through C36, C37 and C58; remove through the specification of rmtree. Theorems: ProjectProperties3. Status: partial. Refuted, and thus missing: plain files are listed as runs (and shown at a path outside every branch); the name is stale after rename if it was asked before; two objects for the same project are never equal.
- **C85** Physical constants are the same quantity in every metric system. UniversalModel: the table with exact decimals, lookups, and the units of the metric model. Computed over the table with an arbitrary libm, lifted to every history by C74_history. The specification gives for each constant its powers of mass, length, time and temperature; the ratio of numbers follows from them. Electromagnetic constants and c1 are refuted. Theorems: UniversalProperties. Status: partial. Proved for all constants of mechanics and heat but one. Refuted, and thus missing: the first radiation constant has the MKS number in both systems; the elementary charge converted from C to statC is 100 times the CGS value (the table of conversions uses the speed of light in cm/s where m/s is meant); the permittivity disagrees by a factor of 4 pi; the permeability cannot be converted.
- **C86** Views of datafiles: one view per file, whose contents stay what they were. ViewModel: a state machine over (files on disk, views by path), with events write, remove, ask, read; the contents of one file come from DatafileModel. Induction over histories with the invariant that every value a view remembers was read from the file it has open, and that numbers of views are distinct. Two surprises are theorems: only the hint of the first request counts, and a replaced file is never seen. Theorems: ViewProperties. Status: partial. Proved as stated, for every history. Partial because a user also expects a request to honour its hint and to show the current file; both are refuted: the hint of the first request counts, and a file replaced after it was read is never seen. Files that are written to while open are not modelled.
- **C87** Aliases given beside the values. Model AliasedModel2.v on top of AliasedModel: values are texts, lists of texts, interior mappings or other objects; all forms of the aliases argument; fromkeys, squeeze, alias, equality as the item views of Python compare, merging through two dictionaries, views (a names view keeps its list of names, a groups view is live) and freeze. As before the identity of group keys in a dictionary (their hash depends on set order) is a parameter that is only assumed sound. Proved: lookups after construction are sound, complete, and exact for unrelated keys; merging; equality for disjoint groups; fromkeys; squeeze; alias; group views after every history; name views after assignments. Refuted: equality with repeated names is not symmetric, name views do not follow deletions and new names, strict squeeze of an empty mapping fails. Theorems: AliasedProperties3, AliasedProperties4, AliasedProperties5. Status: partial. Proved for all mappings and all forms of aliases: construction, fromkeys, merging, equality of mappings without repeated names, squeeze, alias, freeze; views of groups after every history, views of names after assignments. Refuted: views of names do not follow deletions and new names; with a name in two groups equality is not symmetric; a strict squeeze of an empty mapping raises IndexError. Related keys (two keys of the mapping in one alias group) are covered by the soundness clauses only: the value is that of one of them.
- **C88** A project can be created and opened. ScriptModel: the template _project_main.py line by line (generated from the file), the composition of the script, and the disk that the constructor leaves when it raises. Proof: only two lines of the template begin with "import " (computed once), so the search fails for every module name but those two; a new root contains only the settings, the log and the run directories at that point, so the script does not exist. The positive theorems: the text of the script for any template with the line, and the repaired project equals the intended one. C36, C40 and C59 take the composed script (text or exception) as a parameter. Theorems: GapProperties3, ScriptProperties. Status: partial. False of the code at this commit: the line "import <module>" that _setup_cli looks for is not in the template (it has only "from . import ..."), so list.index raises ValueError. Proved in general: creating a new project never succeeds (unless a directory of the project is itself called __main__.py); settings, log and run directories are left on the disk; every later attempt to open it fails and changes nothing; with a file __main__.py put there by hand the project opens and is exactly the one that was asked for. The theorems of C36, C40, C59 about new projects take the text of the script as a parameter, so they speak about that repaired project, and about the package with a template that has the line.
- **C89** Command lines do what they say. CommandModel: the part of argparse in use (options with nargs None, *, +, 0, extend, const, type=int; one exclusive group; positional arguments consumed one by one), the tables of options copied from the code, the calls made, and their composition with ProjectModel. CommandSpec describes a line as a list of items (bare argument, or option with its arguments) and says what settings it has, with no reference to the parser. Proof: parsing a line of items equals stepping through the items (by induction, using that a greedy option is never followed by a bare argument); conversely every accepted line is such a list (induction on its length). Surprises are theorems: -b swallows names, show -r splits names into characters. Theorems: CommandProperties, CommandProperties2, PathProperties. Status: partial. Acceptance, settings and effects proved for every line over the documented option strings. Refuted, and thus missing: a name written after -b is taken for a branch and the line is refused; show -r run asks for the characters of the name (extend without nargs); no subcommand raises KeyError; create can never succeed (C88). Not modelled: abbreviations, --name=value, attached values, --, -h, negative numbers.
- **C90** Files are searched for in the places given, in order. SearchModel over FsModel, with the current directory and the directory at import time as separate inputs. SearchSpec says what holds a file means, from the contents of the disk alone. Proof: the loop over texts equals a loop over resolved places; each outcome is an equivalence, by induction on the list of places. Line counts use C32_lines. Theorems: SearchProperties. Status: partial. Exact characterisation of every outcome. Refuted, and thus missing: a place that does not exist hides the places after it; the default directory of find_file_by_template is the one in which the package was imported. Not modelled: links, ~ and .. in paths.
- **C91** Printed tables show every value in its column. TableModel on the rows of ContainerModel: a cell is a text, a number (its printed text), a truth value or an object without a format. TableSpec describes a line as a concatenation of cells, each a text between blanks. Proof: the columns by induction on the names, the widths as maxima, each line by its cells. Theorems: TableProperties. Status: partial. Proved for texts and numbers (given by their printed texts). Refuted, and thus missing: None and lists are a TypeError (C91_unprintable), truth values are shown as 1 and 0, an empty table is an IndexError.
- **C92** Every name of a quantity or parameter means one thing. ReferenceModel: the tables copied from the code, aliased mappings and name maps of AliasedModel, the union of both collections of groups and the mapping of arguments. ReferenceSpec: what it means for a text to be a name in a table. Proof: everything for arbitrary tables without repeated names, from C05, C08 and a new criterion for when a name map can be built (C08_when); that the shipped tables have no repeated names is one computation. Theorems: ReferenceProperties. Status: partial. Proved for every text and list of names. Refuted, and thus missing: T names a parameter and the polar angle, so a value for the one is taken for the other (C92_shared shows that only mass, charge and T are shared, and C92_parameters that all other names of parameters keep their meaning). Not modelled: the tables UNITS and DIMENSIONS of reference.py.
- **C93** Arguments of any kind are recognised, paired and compared. WrapModel. hastype and find_first are over arbitrary isinstance and iteration functions (Section variables, quantified in the theorems); distribute over single objects and collections; Wrapper over numbers and texts, with sorted as a sort that needs comparable members; doc2help on texts. Proof: induction; equality of wrapped objects from the fact that sorting with a total order gives equal lists exactly for permutations. Theorems: WrapProperties. Status: partial. Proved for every class and object, and for wrapped numbers or texts. Refuted, and thus missing: an empty collection passes the strict test of hastype only; distribute of two single objects is a TypeError (in C93_distribute); wrapped collections are compared without order, and with mixed members not at all; an object without documentation has the help None, an empty text as a phrase is an IndexError, and the phrase form lowers the first letter of names.
- **C94** Equal objects can replace each other in sets and as keys. HashModel: __hash__ as an arbitrary function of the built-in value whose hash is taken, __eq__ by class, and sets that look at equality only where hashes agree. Proof: equality of two objects of a class is equality of values (for expressions by the uniqueness of canonical forms, C01 and C02); sets by induction over the additions. Theorems: HashProperties. Status: partial. Proved for operators (and their texts), terms and expressions whose numbers are exact doubles, dimensions (and tuples), named units, groups of one name and sentinels, and for all sets made of objects of one class. Refuted, and thus missing: a term, expression, named unit or dimensions equal to a text or number is not found by it; units have no hash; terms whose different fractions have the same double, and groups iterated in different orders, are equal with different hashes.
- **C95** Shifting one unit to another gives the conversion factor. ShiftModel: the eight special methods and the dispatch of Python, over the conversion cache of MetricModel. Proof: case analysis of the operands; the cache of conversions always holds inverse pairs (induction over the history); agreement with named units from C21 and C22. Theorems: ShiftProperties. Status: proved. For every operand, every history and (except C95_agree, about the package tables) every table of units. Factors are exact numbers, not doubles.
- **C96** Derived observables are the formulas of the observed components. FormulaModel: the nine formulas as compositions of the array operations of PhysicalModel and PhysFuncModel, and the quantities with the unit and dimensions of a stored one, observed by ObservableModel. Proof: each operation keeps the grid (axes and lengths) of its operands and the formula of the amounts; the sizes of the units are computed along, so that the ratio inside the inverse cosine is a pure number. Theorems: FormulaProperties. Status: proved. The stored quantities are any that yield arrays with the same axes when asked for the same, with angles in radians; conversions and products of units as proved in C21 to C23. Numbers are exact rationals, so a root is exact only where the theorem says so. The axes of an angle that is not observed everywhere are wrong (C45_angle_axes_refuted). That an observation of stored components succeeds is C66; that the formula can be computed is shown by the example only.
- **C97** Source files as text. TextModel: repr of texts character by character, the formats full and none of both files, todict, tolines and tostring. TextSpec: an independent reader of Python literals as an automaton over the characters, and the tokens of a dictionary of dictionaries. Proof: the automaton over a concatenation is the composition (run_app); each character is read back (all 256); induction over attributes and entries; injectivity of the token sequences by induction; lines by induction over the pieces. Theorems: TextProperties. Status: partial. Proved for mode full, for every table that C97_loaded (or C34, for the values of constants) describes. Refuted, and thus missing: without a mode constants are written as sets of one number (C97_default_refuted), and the type of a parameter is written as <class ...>, which no Python reader accepts (C97_parameters_default_refuted). The texts of numbers are a parameter (they are words); characters outside Latin-1 and the mode raw of the constants are not modelled.
- **C98** Printed forms of objects. PrintModel: classes as the list of method resolution, lookup of str and repr, the generated methods, mutual recursion of str and repr with a depth. Proof: lookup is the nearest class (induction over the list); the recursion ends in at most three steps, or never (induction over the depth). Theorems: PrintProperties. Status: partial. Proved for every order of method resolution. Refuted, and thus missing: str2repr shows only the name of a derived class, and a class whose own str shows its repr cannot be printed once decorated. The style numpy of autostr is not modelled.

## What is not modelled

argparse beyond the options in use (abbreviations, `--name=value`, `-h`, `--`), help texts and messages; base/_abcs, _protocols (type declarations); universal.show,
the tables UNITS and DIMENSIONS of reference.py (read by nothing modelled); `format` of
metric/_units.py; the texts of numeric objects; netCDF reading itself; floating-point rounding.

## Findings about the code

Each is proved as a `_refuted` theorem or shows up as an explicit hypothesis.

- Symbolic: `a**0` is not 1; coefficients that do not print as plain numerals are lost or rejected; see C03, C04.
- Groups of aliases can overlap after an update that bridges two groups (C07).
- Physical arrays converted twice use the scale of the last conversion only (C27).
- Array products take the right operand's axes; see C28, C29.
- Configuration values: zeros in sums, three-term sums, minus signs in exponents, and zero factors
  are rejected; `minimum_energy` cannot be set; settings of aliases are ignored; computed defaults do not follow
  the user's settings (C34, C64).
- Projects: `rm('')` removes all runs; `rename` replaces every occurrence in the log's keys (C38); the
  names `inputs` and `eprem.cfg` are hard-coded; interfaces compare attributes by identity.
- Observers: ids lose leading characters to `lstrip`; the order of a set of prefixes decides which file
  is found; stray files match (C43).
- Exceptions: a subclass key raises KeyError; arrays as conditions raise (C42).
- Unique instances: one metaclass table for all classes; text and Path keys differ (C51).
- Observables: a shell number that does not exist returns all shells; a plain number off the axis raises; negative shells raise
  TypeError; fractions in shells are truncated (C44, C66).
- Interpolation: a radius on a grid node raises; end points of an axis are refused beside targets off the axis; a radius
  outside the grid at any time raises; time-and-radius interpolation uses the radii of the first stored times (C46).
- Integral flux: zero fluxes around the minimum energy give NaN; no minimum energy gives the cumulative flux below each
  energy; a minimum at the highest energy raises (C47).
- Derived observables: no magnetic field gives NaN; an empty distribution has average energy NaN; the angle keeps axes
  that do not fit its data (C45).

- Datafiles: the energy axis of a file with several species has the wrong length; speeds in cm/s and times in s cannot be read in mks (C76).
- Views of datafiles: only the hint of the first request for a path counts; a file that is replaced after it was read is never seen (C86).
- EPREM sources: comments after constants become part of their values; lines inside block comments count; arrays with several elements are not recognized (C77).
- Measured objects: several conversions between classes lose the unit; sequences of scalars are unusable; variables index and cast without checks (C78).
- Command line: --diff fails on files that agree; generated files do not keep one-element lists with units (C79).
- Operators by name: generate without names yields tuples and ignores exclusions; the groups cast and math cannot be called with one argument (C80).
- numpy functions: of two arrays, functions without a registered version use the first one twice; units are ignored (C81).
- Command lines: names after -b are taken for branches; show -r asks for single characters; no subcommand raises KeyError (C89).
- Projects: a new project can never be created, because the template of its script lacks the line that is looked for; the directory it leaves cannot be opened either (C88).
- Aliased mappings: views of names are stale after deletions and new names; equality with repeated names is not symmetric; a strict squeeze of an empty mapping raises IndexError (C87).
- Searching for files: a place that does not exist hides the places after it; the default directory of templates is that of the import (C90).
- Tables: an empty table, None and lists cannot be printed; truth values are printed as 1 and 0 (C91).
- Names: T is a parameter and an alias of the polar angle (C92).
- Hashes: terms, expressions and named units equal a text or number that has another hash; units have no hash; equal groups may have different hashes (C94).
- Helpers: hastype with strict holds for empty collections that fail without it; wrapped objects of mixed members cannot be compared (C93).
- Factories: returns(..., strict=False) is as strict as without it (C82).
- Run log: a value that JSON cannot represent empties the log; moving onto an existing record loses it; a record loaded from a file repeats the whole log (C83).
- Listings: plain files count as runs; the cached name is stale after rename; two objects for one project differ (C84).
- Source files as text: without a mode, constants are written as sets of one number and types as <class ...> (C97).
- Constants: c1 has the same number in both systems; C, A, V, S, ohm and H are converted with the speed of light in cm/s where
  m/s is meant, so that 1 C is 100 times too many statC and a farad is not a squared coulomb per joule (C85, C21).
