{"id": "C01", "title": "Symbolic reduction preserves meaning", "statement": "Building a symbolic expression from any non-empty list of terms and reading its terms back gives a product that has the same numeric coefficient and, for every base symbol, the same total exponent as the original list; reduction never invents, loses or mixes symbols.", "quantifier": "every finite list of terms (coefficient, base, exponent)", "why_tests_cant": "the space of term lists is unbounded; a merge bug can depend on the order and repetition of bases", "anchors": ["src/eprempy/symbolic/_expression.py: reduce, Expression.__init__", "src/eprempy/symbolic/_operand.py: Term"]}
{"id": "C02", "title": "Symbolic expressions have a canonical form", "statement": "Two expressions built from term lists that denote the same monomial (same coefficient, same exponent for every symbol) compare equal and have identical reduced terms, whatever the order, grouping or repetition of the input terms; the reduced terms are sorted, have pairwise different bases and no zero exponents, and reducing them again changes nothing.", "quantifier": "every pair of finite term lists", "why_tests_cant": "equality of two arbitrary spellings is a universally quantified statement over pairs of lists", "anchors": ["src/eprempy/symbolic/_expression.py: reduce, Expression.__eq__"]}
{"id": "C03", "title": "Symbolic multiplication, division and powers obey the laws of an abelian group", "statement": "For all expressions a, b, c: a*b == b*a, (a*b)*c == a*(b*c), a/a == 1, (a*b)/b == a, and (a*b)**n == a**n * b**n, (a**m)**n == a**(m*n) for non-zero exponents; a**0 denotes 1.", "quantifier": "every triple of expressions, every rational exponent", "why_tests_cant": "algebraic laws over all expressions", "anchors": ["src/eprempy/symbolic/_expression.py: __mul__, __truediv__, __pow__", "src/eprempy/symbolic/_operand.py: Operand.__pow__, Operand.__init__"]}
{"id": "C04", "title": "Unit strings mean what they say, and printing then parsing is the identity", "statement": "Formatting an expression as a string and parsing the string gives back an equal expression; in a parsed string the division sign applies to exactly the next factor (a / b c means a b^-1 c) and parentheses group.", "quantifier": "every reduced expression; every well-formed string", "why_tests_cant": "string round-trip over all expressions", "anchors": ["src/eprempy/symbolic/_parser.py: Parser", "src/eprempy/symbolic/_operand.py: find_bounds, OperandFactory", "src/eprempy/symbolic/_expression.py: format"]}
{"id": "C05", "title": "All aliases of an aliased-mapping entry give the same value", "statement": "In an aliased mapping built from entries whose alias groups are pairwise disjoint, looking up any alias of a group gives the value of that entry; whatever the entries, the names found are exactly the names given, unknown names raise KeyError, membership agrees with lookup, and if stored groups overlap the last stored group that holds the name wins; the length counts names, not groups.", "quantifier": "every finite collection of groups and values, every key", "why_tests_cant": "aliases may overlap or repeat in any order", "anchors": ["src/eprempy/aliased.py: Mapping.__getitem__, _build_mapping, _flat_dict, __contains__, __len__"]}
{"id": "C06", "title": "Mutable aliased mappings stay consistent under any history", "statement": "After any sequence of assignments, deletions and alias registrations on a mutable aliased mapping, no name belongs to two groups, every alias of one group returns the same value, an assigned value is returned by every alias of the assigned name until it is reassigned or deleted, and other groups are unaffected by an operation.", "quantifier": "every sequence of operations and keys", "why_tests_cant": "unbounded histories", "anchors": ["src/eprempy/aliased.py: MutableMapping.__setitem__, __delitem__, alias, group, freeze"]}
{"id": "C07", "title": "Alias groups never overlap", "statement": "A collection of alias groups built and updated in any way never holds one name in two different groups: adding names that touch existing groups merges them into one group.", "quantifier": "every sequence of add/update/remove of name groups", "why_tests_cant": "depends on the history of merges", "anchors": ["src/eprempy/aliased.py: Groups._merge, update, add, without"]}
{"id": "C08", "title": "Name maps resolve every reference name to its canonical name", "statement": "A name map built from canonical names and aliases maps every alias to the one canonical name, maps canonical names to themselves, and raises on unknown names.", "quantifier": "every reference collection and every name", "why_tests_cant": "universally quantified over reference tables", "anchors": ["src/eprempy/aliased.py: NameMap"]}
{"id": "C09", "title": "Merging ordered collections is a common supersequence or an error", "statement": "For x and y without repeats of their own, merge(x, y) either raises MergeError or returns a list without repeats holding exactly the members of x and y, in which x and y each appear in their original order; it raises exactly when the two orders conflict, that is when x and y have no common supersequence without repeats.", "quantifier": "every pair of finite lists", "why_tests_cant": "interleavings of two lists are unbounded", "anchors": ["src/eprempy/container.py: merge"]}
{"id": "C10", "title": "nearest finds the closest member, on the requested side", "statement": "nearest(values, target) returns the index of an element that minimises the distance to the target (the first one if tied) together with that element; bound='lower' never returns an element below the target and bound='upper' never one above it when such an element exists in ascending data; if none exists the end of the data is returned.", "quantifier": "every non-empty list of rationals, every target", "why_tests_cant": "ties, boundaries and out-of-range targets over all arrays", "anchors": ["src/eprempy/container.py: nearest"]}
{"id": "C11", "title": "unique keeps first occurrences in order", "statement": "unique(*args) contains each distinct argument exactly once, in order of first appearance, and nothing else.", "quantifier": "every finite list", "why_tests_cant": "all lists", "anchors": ["src/eprempy/container.py: unique"]}
{"id": "C12", "title": "Weighted graphs store mutually inverse edges", "statement": "After any sequence of connections between distinct nodes, the weight stored from a to b times the weight from b to a is one, the first weight given for a pair is the one kept, and a node's neighbours are symmetric.", "quantifier": "every sequence of (edge, weight) insertions", "why_tests_cant": "unbounded build histories", "anchors": ["src/eprempy/container.py: Graph"]}
{"id": "C13", "title": "Bijections invert exactly", "statement": "A bijection built from pairs with distinct keys and distinct values satisfies invert(invert(b)) == b and inverse lookup of forward lookup is the identity; construction from non-injective data is rejected.", "quantifier": "every mapping", "why_tests_cant": "all mappings", "anchors": ["src/eprempy/container.py: Bijection"]}
{"id": "C14", "title": "Table lookups return exactly the matching rows", "statement": "Table.find(value) returns precisely the entries that hold the value under the requested key(s), and a call with constraints returns the unique matching entry or raises.", "quantifier": "every table and query", "why_tests_cant": "all tables", "anchors": ["src/eprempy/container.py: Table.find, Table.__call__"]}
{"id": "C15", "title": "Array-like index shifting and arithmetic stay in bounds", "statement": "Shifting an index by any number of places with explicit bounds gives a value inside the bounds and is exact when the exact sum lies inside; sequences shift element by element.", "quantifier": "every integer index, shift and bounds", "why_tests_cant": "clamping over all integers", "anchors": ["src/eprempy/numeric/_index.py: Value.shift, Sequence.shift"]}
{"id": "C16", "title": "Subscript normalisation agrees with array semantics", "statement": "Expanding an ellipsis and padding user subscripts yields exactly one subscript per dimension, in order; normalised integer and sequence subscripts select the same elements as applying each subscript along its own axis.", "quantifier": "every subscript tuple and shape", "why_tests_cant": "all ranks and mixes of subscripts", "anchors": ["src/eprempy/numeric/_index.py: expand, expand_ellipsis, normalize, resolve"]}
{"id": "C17", "title": "Restricting indices keeps bracketing points", "statement": "Restricting an axis to the surroundings of target values returns consecutive positions, all valid for the axis and in order, that bracket every target inside the data in every row, and no narrower range does.", "quantifier": "every axis (in one or two dimensions) and every set of targets", "why_tests_cant": "all lists", "anchors": ["src/eprempy/numeric/_index.py: restrict"]}
{"id": "C18", "title": "Dimension-name algebra", "statement": "Combining dimension names keeps them unique; a|b contains exactly the names of both in consistent order, a&b exactly the shared names, a-b exactly those of a not in b, and a^b exactly those in one of them; permute only accepts a permutation of the existing names.", "quantifier": "every pair of dimension tuples", "why_tests_cant": "all tuples of names", "anchors": ["src/eprempy/numeric/_array.py: Dimensions"]}
{"id": "C19", "title": "Named broadcasting: the product of two arrays pairs values by dimension name", "statement": "For arrays with named dimensions whose shared dimensions have equal lengths, every element of a*b at named coordinates equals the product of the element of a at its own coordinates and the element of b at its own coordinates; a*b and b*a agree up to transposition.", "quantifier": "every pair of named arrays and every coordinate", "why_tests_cant": "all ranks, shapes and orders of axes", "anchors": ["src/eprempy/numeric/_array.py: remesh", "src/eprempy/real/_array.py: multiplicative"]}
{"id": "C20", "title": "Adding or comparing arrays never silently aligns different dimensions", "statement": "Addition and comparison of arrays succeed only if the dimension names agree; otherwise an error is raised, and the result has the dimensions of the operands and element-wise values.", "quantifier": "every pair of arrays", "why_tests_cant": "all dimension tuples", "anchors": ["src/eprempy/real/_array.py: additive, comparative"]}
{"id": "C21", "title": "Unit conversion factors are coherent", "statement": "Whenever a conversion from unit u to unit v exists its factor equals size(u)/size(v) for one fixed positive size function; hence u->u is 1, u->v and v->u are reciprocal and u->v->w agrees with u->w for all units the search can reach.", "quantifier": "every chain of conversions the search can find, for any consistent table", "why_tests_cant": "search paths are unbounded and cycles exist in the conversion graph", "anchors": ["src/eprempy/metric/_conversions.py: conversion_factory, _recursive_conversion", "src/eprempy/metric/_reference.py: CONVERSIONS"]}
{"id": "C22", "title": "Prefixed units of one base unit convert by the ratio of their prefixes", "statement": "ratio(u, v) of two named units with the same base unit is the quotient of their metric prefixes, is reciprocal under swapping and transitive, and raises for different base units.", "quantifier": "every triple of prefixed named units", "why_tests_cant": "all prefix pairs", "anchors": ["src/eprempy/metric/_defined.py: NamedUnit.ratio"]}
{"id": "C23", "title": "Unit algebra: quantity of a product is the product of quantities", "statement": "Multiplying, dividing and raising units gives units whose dimension is the product, quotient and power of the dimensions; equal units have equal dimensions, in every unit system.", "quantifier": "every pair of units", "why_tests_cant": "all compound units", "anchors": ["src/eprempy/metric/_units.py: Unit.__mul__, __truediv__, __pow__"]}
{"id": "C24", "title": "One unit object per distinct unit", "statement": "Creating a unit from any two spellings that denote the same unit returns the same object, at any point of the history; creating a different unit never returns it.", "quantifier": "every history of unit creations", "why_tests_cant": "cache histories are unbounded", "anchors": ["src/eprempy/metric/_units.py: unit_factory", "src/eprempy/etc.py: InstanceSet"]}
{"id": "C25", "title": "Parsing measurable input keeps every value and the unit", "statement": "parse(values..., unit) returns exactly the given numbers, in order, with exactly the given unit; input without a unit is unitless; mixed units are rejected; null input is rejected.", "quantifier": "every list of numbers and every unit", "why_tests_cant": "all lengths and nesting shapes", "anchors": ["src/eprempy/quantity/_functions.py: parse"]}
{"id": "C26", "title": "Changing the unit of a scalar or vector preserves the physical quantity", "statement": "x.withunit(u) has unit u and the same value times size of unit; converting to v and back gives x; converting to u then v equals converting to v directly.", "quantifier": "every value and every chain of convertible units", "why_tests_cant": "all chains", "anchors": ["src/eprempy/physical/_operations.py", "src/eprempy/measured/_convert.py: apply", "src/eprempy/physical/_object.py: withunit"]}
{"id": "C27", "title": "Changing the unit of a physical array preserves the physical quantity, also when repeated", "statement": "For a physical array, any chain of unit changes yields an array whose data are the original data times the factor from the original unit to the last unit.", "quantifier": "every array and every chain of convertible units", "why_tests_cant": "chains of any length", "anchors": ["src/eprempy/physical/_array.py: converter, Array.data"]}
{"id": "C28", "title": "Physical arithmetic is dimensionally sound", "statement": "Sums, differences and comparisons of physical objects succeed only for equal units and keep that unit; products and quotients have the product and quotient unit; powers scale the unit exponent; a result never depends on the unit in which the caller expressed the operands (after conversion to a common unit).", "quantifier": "every pair of physical objects and every operator", "why_tests_cant": "all values and units", "anchors": ["src/eprempy/physical/_operations.py"]}
{"id": "C29", "title": "Array arithmetic keeps axes and data consistent", "statement": "The axes of the sum or product of two physical arrays have, in order, the dimension names and lengths of the resulting data.", "quantifier": "every pair of physical arrays", "why_tests_cant": "all axes", "anchors": ["src/eprempy/physical/_axes.py: Axes.__or__, _merge, __add__", "src/eprempy/physical/_operations.py: multiplicative"]}
{"id": "C30", "title": "Axis lookups return the position of the requested coordinate", "statement": "Indexing an axis by a value returns positions whose reference equals (symbols, points) or is closest to (coordinates) the request, in request order; requests that are not on the axis raise, and slices and integers are normalised to in-range positions.", "quantifier": "every axis and every request", "why_tests_cant": "all axes and targets", "anchors": ["src/eprempy/physical/_axis.py: Axis.index, Points.index, Symbols.index, Coordinates.index"]}
{"id": "C31", "title": "Re-arranging axes loses nothing", "statement": "Permuting, inserting, removing, replacing and extracting axes keep every untouched axis with its data and relative order; permute accepts exactly permutations; inserting puts the new axis where requested.", "quantifier": "every axes object and argument", "why_tests_cant": "all ranks", "anchors": ["src/eprempy/physical/_axes.py: insert, replace, without, extract, permute"]}
{"id": "C32", "title": "Configuration files: last assignment wins, comments never leak into values", "statement": "Reading a configuration file gives exactly the key-value pairs of its assignment lines, with surrounding blanks and comments removed, later assignments overriding earlier ones; blank and comment lines contribute nothing; malformed lines are rejected.", "quantifier": "every list of lines", "why_tests_cant": "all texts", "anchors": ["src/eprempy/parameter/_config.py: _parse_config, strip_inline_comments"]}
{"id": "C33", "title": "Comparing configurations reports exactly the differences", "statement": "The difference of two configurations lists exactly the parameters that are missing from one of them or whose values differ.", "quantifier": "every pair of configurations", "why_tests_cant": "all pairs", "anchors": ["src/eprempy/parameter/_config.py: ConfigFile.diff, compare"]}
{"id": "C34", "title": "Default parameter expressions evaluate to their arithmetic value", "statement": "Evaluating a default parameter given as a number, a reference, a product or a sum of other parameters gives the arithmetic value of the definition.", "quantifier": "every environment of parameter definitions", "why_tests_cant": "all definition graphs and values (including zero)", "anchors": ["src/eprempy/parameter/_config.py: Defaults", "src/eprempy/parameter/_src.py: _evaluate, _compute_sum"]}
{"id": "C35", "title": "User-provided runtime parameters override defaults, and nothing else does", "statement": "For each parameter, the runtime interface returns the user's value if the user set a known parameter, otherwise the default; the same for every alias of the parameter; unknown names raise.", "quantifier": "every user configuration and defaults table", "why_tests_cant": "all configurations", "anchors": ["src/eprempy/parameter/_runtime.py: interface_factory, Interface.__getitem__"]}
{"id": "C36", "title": "The run log mirrors the run directories after every successful history", "statement": "After any sequence of successful create, move and remove operations, the runs recorded in the log are exactly the run directories that exist, each with the contents recorded at creation.", "quantifier": "every history of operations", "why_tests_cant": "histories are unbounded", "anchors": ["src/eprempy/project.py: RunLog, RunPaths, Interface.run, mv, rm"]}
{"id": "C37", "title": "A failed operation on several branches never damages other runs", "statement": "If a create, move or remove over several branches fails part-way, each branch is either fully processed or untouched, and directories outside the requested runs are unchanged.", "quantifier": "every filesystem state, every failure point", "why_tests_cant": "crash and failure points", "anchors": ["src/eprempy/project.py: RunPaths, _PathOperation"]}
{"id": "C38", "title": "Renaming a project keeps its history addressable", "statement": "After renaming a project every run path recorded in the log lies under the new root and points at the directory that was moved.", "quantifier": "every log and pair of roots", "why_tests_cant": "all log contents", "anchors": ["src/eprempy/project.py: Interface.rename, RunLog.update_directory"]}
{"id": "C39", "title": "A failed run leaves the project consistent", "statement": "If the simulation fails, the log has no entry for the run and later moving or removing runs keeps the log and directories in agreement.", "quantifier": "every history with failures", "why_tests_cant": "failure points in unbounded histories", "anchors": ["src/eprempy/project.py: Interface._create_run, mv, rm"]}
{"id": "C40", "title": "Project attributes survive save and restore", "statement": "Writing project attributes to the database and reading them back gives equal attributes, so restoring a project any number of times changes nothing.", "quantifier": "every attribute set", "why_tests_cant": "all attribute values", "anchors": ["src/eprempy/project.py: Attrs, Interface._get_attrs"]}
{"id": "C41", "title": "Ion species names round-trip through mass and charge", "statement": "The species built from a mass and charge has that charge, and its symbol's table mass matches the requested mass; looking the symbol up again gives the same element.", "quantifier": "every charge, every element of the table", "why_tests_cant": "charges are unbounded; collisions are hidden in the table", "anchors": ["src/eprempy/atomic.py: elements, Species"]}
{"id": "C42", "title": "Exception wrappers translate exactly the registered exceptions", "statement": "A wrapped callable behaves as the original on success, returns or raises the registered substitute when the callable raises a registered exception (or a subclass), and lets every other exception through unchanged.", "quantifier": "every callable outcome and registration history", "why_tests_cant": "all exception hierarchies and histories", "anchors": ["src/eprempy/exceptions.py: Wrapper"]}
{"id": "C43", "title": "Stream and observer files are located uniquely", "statement": "Opening an observer by id succeeds exactly if one of its file patterns has exactly one match in the directory, the first such pattern in order is used, and the id recovered from the file name equals the requested id.", "quantifier": "every directory listing and every id", "why_tests_cant": "all directory contents and ids", "anchors": ["src/eprempy/eprem.py: _build_datapath, _get_observer_id, Stream, Point"]}
{"id": "C44", "title": "Observable algebra agrees with array algebra", "statement": "The observation of a sum, product or power of two observables under any user constraints equals the sum, product or power of their observations under the same constraints; units and dimensions follow.", "quantifier": "every pair of observables and every constraint", "why_tests_cant": "all constraints", "anchors": ["src/eprempy/observable/_objects.py: Quantity.__add__, __mul__, __pow__, _apply"]}
{"id": "C45", "title": "Derived observables satisfy the physical relations that define them", "statement": "Cartesian coordinates satisfy x^2+y^2+z^2=r^2; magnitudes are non-negative roots of the sum of squares; wherever there is a magnetic field, the parallel and perpendicular velocities exist, parallel times |B| is U.B, and their squares add up to |U|^2; the angle is in [0, pi] with |U||B|cos(angle) = U.B; rigidity satisfies (E+mc^2)^2 = p^2c^2+(mc^2)^2; the mean free path is lambda0 at one astronomical unit and one MeV and a power law in radius and rigidity; the acceleration rate is non-negative and zero in a uniform flow; flux and distribution are inverse to each other; the average energy lies between the kinetic energies of the slowest and the fastest particles; the divergence from the density is exact for linear densities; fluence is the running time integral of flux, starting at zero.", "quantifier": "every value of the fields, of any array of any length", "why_tests_cant": "all array contents; identities over the reals", "anchors": ["src/eprempy/observable/_interfaces.py: Application.x, y, z, bmag, umag, udotb, upara, uperp, angle, rigidity, mfp, ar, flux, _fiso, fluence, average_energy, energy_density, divu"]}
{"id": "C46", "title": "Observing at values off the axes is linear interpolation between the stored neighbours", "statement": "A quantity observed at times or at radii that lie within the range of the stored ones has, at each place, the value on the straight line between the stored values of the two neighbours, and exactly the stored value at a stored time; the radii are those of each time; values outside the range raise. Hence results lie between the neighbours' values, quantities that are linear are reproduced, and the order of storage does not matter.", "quantifier": "every reference axis or grid, data and list of targets", "why_tests_cant": "all arrays and targets", "anchors": ["src/eprempy/observable/_interfaces.py: interpolate, _apply_interpolation, _apply_interp1d, _check_interpolation_bounds, Application._observe, _interpolate"]}
{"id": "C47", "title": "Integral flux is taken over the stored energies above the minimum, with one end point on the power law through its neighbours", "statement": "The integral flux above a minimum energy is the integral over exactly the stored energies above the minimum and the minimum itself; the flux at the minimum is the stored one if the minimum is a stored energy, and otherwise the value of the power law through the two neighbouring points, hence between their fluxes and exact for power-law spectra; a minimum below all energies selects the whole spectrum; a minimum at or above the highest energy raises; without a minimum the flux above each energy is given.", "quantifier": "every increasing energy grid, spectrum, minimum energy and rule of integration", "why_tests_cant": "all grids and spectra", "anchors": ["src/eprempy/observable/_interfaces.py: Application.intflux, _integrate_flux, _integrate_flux_slice, _check_interp"]}
{"id": "C48", "title": "Derived comparisons are consistent", "statement": "For every pair of comparable quantities, exactly the logical combinations hold: a != b is not (a == b), a <= b is (a < b or a == b), a >= b is not (a < b), a > b is not (a <= b).", "quantifier": "every pair", "why_tests_cant": "all values", "anchors": ["src/eprempy/real/_objects.py: Quantity", "src/eprempy/numeric/_operators.py"]}
{"id": "C49", "title": "Transposing an array with named dimensions permutes data and names together", "statement": "After transposing, the element at named coordinates is unchanged; transposing twice with inverse permutations gives the array back.", "quantifier": "every array and permutation", "why_tests_cant": "all ranks", "anchors": ["src/eprempy/real/_array.py: transpose", "src/eprempy/physical/_array.py: Array.transpose"]}
{"id": "C50", "title": "Named registries never lose an object", "statement": "Registering objects under any names keeps each registered object retrievable under the returned name; no registration overwrites another.", "quantifier": "every sequence of registrations", "why_tests_cant": "histories", "anchors": ["src/eprempy/container.py: ObjectRegistry"]}
{"id": "C51", "title": "Sentinel and singleton instances are unique", "statement": "Two requests for the same instance key give the same object, and different keys give different objects, at any point of any history.", "quantifier": "every history of requests", "why_tests_cant": "histories", "anchors": ["src/eprempy/etc.py: InstanceSet, sentinel"]}
{"id": "C52", "title": "Slices convert to the ranges they denote", "statement": "slice2range(s, n) enumerates exactly the positions selected by the slice from a sequence of the given length.", "quantifier": "every slice and length", "why_tests_cant": "all integers start/stop/step", "anchors": ["src/eprempy/container.py: slice2range"]}
{"id": "C53", "title": "Parsing any string terminates", "statement": "Creating a symbolic expression (hence a unit) from any string whatsoever terminates: it returns an expression or raises an exception; the parser never loops.", "quantifier": "every string", "why_tests_cant": "termination over all strings", "anchors": ["src/eprempy/symbolic/_parser.py: Parser.parse, _parse_operand, _resolve_operations"]}
{"id": "C54", "title": "Unwrapping redundant nesting loses no member", "statement": "unwrap removes exactly the redundant enclosing lists: the result is never a one-element list, unwrapping again changes nothing, and the members below, in order, are the same; the size of a nested list is the number of its members and raises if there is a string among them.", "quantifier": "every nested list", "why_tests_cant": "nesting depth is unbounded", "anchors": ["src/eprempy/container.py: unwrap, wrap, size"]}
{"id": "C55", "title": "Reducing or squeezing a named array keeps the named coordinates of the other axes", "statement": "numpy.squeeze drops exactly the length-one axes and their names; sum, mean and trapz along an axis remove exactly that axis and its name, each remaining element being the reduction of the line along that axis; cumsum keeps all names and holds at each place the reduction of the line up to that place.", "quantifier": "every named array and axis (negative indices too)", "why_tests_cant": "all ranks and shapes", "anchors": ["src/eprempy/real/_array.py: squeeze, mean, sum, cumsum, trapz"]}
{"id": "C57", "title": "A killed process damages at most one run record", "statement": "If the process is killed at any point of a create, move or remove request, every recorded run except at most one still names an existing directory and the log can be read.", "quantifier": "every project state, request and crash point", "why_tests_cant": "crash points between any two file operations", "anchors": ["src/eprempy/project.py: RunLog.dump, RunPaths.mv, rm, run, Interface.mv, rm, run"]}
{"id": "C58", "title": "No request changes anything outside the runs and the log", "statement": "Whatever the outcome of a create, move or remove request, and wherever the process is killed, every file and directory other than the log file and the runs themselves stays as it was.", "quantifier": "every project state, request, outcome and crash point", "why_tests_cant": "all file systems and crash points", "anchors": ["src/eprempy/project.py: RunPaths, RunLog, Interface.run, mv, rm"]}
{"id": "C59", "title": "A project made as a copy of another has its settings", "statement": "A project created from another one has the branches, configuration name and output names of the original.", "quantifier": "every original project and target", "why_tests_cant": "all settings", "anchors": ["src/eprempy/project.py: Interface._init_attrs"]}
{"id": "C60", "title": "Asking whether input is measurable agrees with measuring it", "statement": "ismeasurable(x) is true exactly when parse_measurable/measure accepts x.", "quantifier": "every nesting of numbers, strings, units and None", "why_tests_cant": "all nestings and lengths", "anchors": ["src/eprempy/quantity/_functions.py: ismeasurable, parse"]}
{"id": "C61", "title": "Axes are made as requested", "statement": "Making axes from names and axis values, or from names and lengths, gives each name its axis, in order; without names they are x0, x1, ...; a wrong number of names raises, and no axis is lost.", "quantifier": "every list of names, axis values and lengths", "why_tests_cant": "all lengths and names", "anchors": ["src/eprempy/physical/_axes.py: axes_factory, _map_axes"]}
{"id": "C62", "title": "A part of an axis remembers where its members came from", "statement": "axis[i] holds the members selected by i, and its indices are the positions of these members in the axis it was taken from.", "quantifier": "every axis and every subscript", "why_tests_cant": "all lengths, slices and index lists", "anchors": ["src/eprempy/physical/_axis.py: Axis.__getitem__, indices"]}
{"id": "C56", "title": "Transposing a physical array rearranges it and nothing else", "statement": "array.transpose with the names of all dimensions, or with axis numbers, gives an array whose axes and data are rearranged together: every amount (number times unit) stays at the same named coordinates.", "quantifier": "every array, every permutation of its dimensions", "why_tests_cant": "all shapes and permutations, after any conversion history", "anchors": ["src/eprempy/physical/_array.py: Array.transpose", "src/eprempy/real/_array.py: transpose", "src/eprempy/physical/_axes.py: permute"]}
{"id": "C63", "title": "A part of a physical array has the selected values and the selected axis references", "statement": "array[i, j, ...] with one subscript per axis keeps the unit and the dimension names; along each axis it holds exactly the selected references, and its values are those at the selected positions.", "quantifier": "every array and every tuple of integers, slices and index lists", "why_tests_cant": "all shapes and subscripts", "anchors": ["src/eprempy/physical/_array.py: Array.__getitem__", "src/eprempy/physical/_axis.py: Axis.__getitem__"]}
{"id": "C64", "title": "Defaults that refer to other parameters follow the user's settings", "statement": "A parameter that the user leaves unset and whose default is defined by other parameters has the value of that definition at the user's values of those parameters.", "quantifier": "every configuration", "why_tests_cant": "all configurations and definitions", "anchors": ["src/eprempy/parameter/_runtime.py: interface_factory", "src/eprempy/parameter/_config.py: Defaults"]}
{"id": "C65", "title": "Shared helper functions behave as documented for every input", "statement": "Joining a list of names mentions every name; trying several parsers in turn gives the first success and runs nothing after it; the common type of two objects does not depend on their order and never leaves the given base; only empty objects, never the number zero, count as null.", "quantifier": "every list of names, list of callables, pair of types in any hierarchy, and object", "why_tests_cant": "all lists and class hierarchies", "anchors": ["src/eprempy/etc.py: join, apply, widest, isnull, allisinstance, strargs"]}
{"id": "C66", "title": "Observing constraints select what they name", "statement": "In quantity[...] an integer or a list of integers subscripts its dimension; a slice selects what Python's slice selects; a value of time, energy or pitch angle that is on the axis selects its position, whatever the unit; a value off the axis is kept as the value to interpolate to, together with the narrowest range of positions that brackets it; a species name selects its position; a shell number selects that shell; a radius is kept as the value to interpolate to, together with the narrowest range of shells that brackets it at all times; anything that is not there raises.", "quantifier": "every dataset, list of dimensions and combination of constraints", "why_tests_cant": "all axes, grids and constraints", "anchors": ["src/eprempy/observable/_objects.py: Quantity.__getitem__, _normalize, _shell_or_radius, Context.implement, Context._parse_user_arg", "src/eprempy/numeric/_index.py: restrict"]}
{"id": "C67", "title": "numpy functions respect units and axes", "statement": "Sine, cosine and tangent accept angles only and give the function of the angle, without a unit; the square root of a quantity squares to the quantity; a logarithm needs a quantity without a unit. Sums, means, running sums and integrals over one axis have the amounts that the sums of the amounts have, keep the other axes with their names, and their axes are as long as the data; without an axis they concern all values. Squeezing removes exactly the axes of length one, transposing reverses the axes, and neither changes an amount. The gradient has one array for each axis, whose amounts are the difference quotients of the amounts over the coordinates' amounts.", "quantifier": "every physical scalar, vector, tensor or array, unit, axis and list of coordinates", "why_tests_cant": "all shapes, names, units and values", "anchors": ["src/eprempy/physical/_operations.py: power, sin, cos, tan, sqrt, log, log10, log2, log1p, squeeze, npmin, npmax, mean, sum, cumsum, transpose, gradient, trapz"]}
{"id": "C68", "title": "A new run gets the configuration the user named", "statement": "Running a simulation with a named configuration puts, in every selected branch where the run is new, a copy of that file into the run directory: the one among the inputs of the project if there is one of that name, otherwise the one below the current directory; and the simulation is told to read that copy.", "quantifier": "every project state, configuration name, choice of branches and outside file system", "why_tests_cant": "all file systems and project settings", "anchors": ["src/eprempy/project.py: Interface.run, Interface._create_run"]}
{"id": "C69", "title": "The normal form of a unit in a metric system", "statement": "unit.normalize(system) replaces every unit by the canonical unit of the quantity it measures, to the same power; so units of the same quantities have one normal form, a normal form is its own normal form, and it has the dimension of the original.", "quantifier": "every unit written with the defined unit symbols (outside the lux), every pair of such units, both metric systems", "why_tests_cant": "all products of powers of units", "anchors": ["src/eprempy/metric/_units.py: Unit.normalize", "src/eprempy/metric/_defined.py: get_quantity"]}
{"id": "C70", "title": "Metric systems answer by quantity, dimension and unit", "statement": "metric.quantity(name) and metric.system(name) give one object per name, whatever its case; system.get_unit gives for a quantity a unit of that quantity's dimension, for a dimension the unit of a quantity with that dimension (an error if there is none), and prefers a unit to a dimension and a dimension to a quantity; two quantities are equivalent when their dimensions agree in every system; an unknown quantity is reported as such.", "quantifier": "every history of requests, every quantity name in any case, every dimension, both metric systems", "why_tests_cant": "all names, dimensions and histories", "anchors": ["src/eprempy/metric/_systems.py: Quantity, quantity_factory, System, system_factory", "src/eprempy/metric/_dimensions.py: Dimension.quantities"]}
{"id": "C71", "title": "Reducing a named unit keeps its size", "statement": "Reducing a named unit gives a power of ten and a product of powers of base units of the same size as the unit; whether a unit can be reduced depends only on its family, not on its prefix.", "quantifier": "every name and symbol of a unit, with every prefix", "why_tests_cant": "all units with all prefixes, against their SI sizes", "anchors": ["src/eprempy/metric/_defined.py: NamedUnit.reduce, NamedUnit._reduce, Reduction"]}
{"id": "C72", "title": "Comparing collections of axes", "statement": "a <= b holds exactly when every axis name of a is a name of b, a < b when in addition b has a name that a lacks; both raise ValueError when a shared name has different axes. a == b holds exactly when the names are the same, in the same order, and the axes are equal name by name.", "quantifier": "all collections of axes and every notion of equality of axes", "why_tests_cant": "all pairs of collections", "anchors": ["src/eprempy/physical/_axes.py: Axes.__eq__, Axes.__lt__, Axes.__le__"]}
{"id": "C73", "title": "Equivalence and consistency of units", "statement": "If a & b is true then a and b have the same size and the same dimension. Units that differ only in the terms 1 and # are equivalent. a | b is true for units with a dimension in common and for units with a conversion factor; where it is false, the conversion raises UnitConversionError. Neither test raises.", "quantifier": "all units (products of powers of defined units), any state of the conversion cache", "why_tests_cant": "all pairs of compound units", "anchors": ["src/eprempy/metric/_units.py: Unit.__and__, Unit.__or__, dimensionless, dimensions, decomposed", "src/eprempy/symbolic/_expression.py: Expression.difference"]}
{"id": "C74", "title": "Conversions to a metric system", "statement": "metric.conversion(unit, system) is the conversion to the unit, in that system, of the given quantity (mass for mass numbers; a metric system as source stands for its unit of the quantity). Without a quantity, a unit that two quantities share in the other system although their units in this one differ is refused with UnitConversionError (None if no error is wanted); any other unit is converted to its normal form in the system. Earlier requests never change a result, and the factor is the ratio of the SI sizes.", "quantifier": "every history of requests, source string, quantity of the tables and metric system", "why_tests_cant": "all units, quantities and histories of the module-level cache of converters", "anchors": ["src/eprempy/metric/_conversions.py: Converter, converter_factory, _get_substitutions, convert, _is_ambiguous", "src/eprempy/metric/__init__.py: conversion"]}
{"id": "C75", "title": "Unit texts of EPREM output", "statement": "metric.standardize(text) replaces the five non-standard unit texts of EPREM files by defined units, leaves any other text without a slash as it is, and otherwise puts everything after the first slash into parentheses, so that the whole of it is read as the denominator: the parsed unit is the numerator divided by all that follows, and doing it twice changes nothing.", "quantifier": "every numerator and denominator of the grammar of written unit expressions, any blanks around the slash", "why_tests_cant": "all unit texts a file may carry", "anchors": ["src/eprempy/metric/_reference.py: _NONSTANDARD, standardize"]}
{"id": "C76", "title": "Arrays, axes and grids of a datafile", "statement": "A view of a NetCDF file lists exactly the known variables and dimensions that it has, with the data, dimensions and unit of the file. Each property of the arrays interface is the variable behind it: the axes are those of its dimensions, in order, its unit is the one of the requested metric system, and every number is the number in the file times the conversion factor, whatever conversions came before. Energies and speeds lose axes of length one; a file with flux has no distribution and vice versa; missing variables raise KeyError, variables without a unit TypeError. The time, shell, species, energy and mu axes hold the converted numbers, the shell integers and the element symbols of the file, as many as the file has; the grid shows r, theta and phi of the arrays.", "quantifier": "every file (any variables, shapes, values, attributes), metric system, and history of earlier conversions", "why_tests_cant": "all files and unit texts, and the state of the converter cache", "anchors": ["src/eprempy/datafile/_viewers.py: NetCDFViewer, View, VIEWERS", "src/eprempy/datafile/_interfaces.py: Axes, Arrays, Grid", "src/eprempy/datafile/_reference.py: ARRAYS, SCALARS, AXES", "src/eprempy/measured/_context.py: Context.convert", "src/eprempy/physical/_array.py: converter"]}
{"id": "C77", "title": "Reading parameters from EPREM source files", "statement": "From baseTypes.h, exactly the lines of the form '#define NAME value' define constants; from configuration.c, exactly the assignments of a reader call declare parameters, with the texts between the commas as attributes by position, and exactly the definitions of one-element arrays declare array defaults. The last declaration of a name counts, names keep the order of their first declaration, all other lines are without effect, and a file written from a table is read back as that table. A default that names an array is replaced by the array; what was read is shown unchanged by get(format='raw'); a literal default is the value of the parameter. Without a source directory, or without the file in it, the package tables are used; a directory that does not exist raises.", "quantifier": "every text of the two files (any number of lines, names, values, blanks and newline conventions) and every table", "why_tests_cant": "all texts of source files", "anchors": ["src/eprempy/parameter/_src.py: SourceFile, BaseTypeDef, BaseTypesH, FunctionCall, VariableDefinition, ConfigurationC", "src/eprempy/paths.py: TextFile.extract, fullpath", "src/eprempy/parameter/_config.py: Defaults._evaluate"]}
{"id": "C78", "title": "Measured objects: making, subscripting, casting and converting", "statement": "Every class of measured objects (Value, Sequence, Measurement, Scalar, Vector, Variable, Tensor, Array) made from numbers holds exactly those numbers in order and the given unit ('1' without one), and raises for shapes it cannot hold. Made from another object, it keeps numbers and unit for the listed pairs of classes, also through any chain of them; an explicit unit is refused. Subscripts select exactly what numpy selects, in the unit of the object, single numbers as Value or Scalar; iteration gives every number once, in order; indices that do not exist raise IndexError. float() gives the number of single-valued objects only, int() truncates it; round, floor, ceil and trunc give the correctly rounded number in the same unit; withunit multiplies every number by the conversion factor and commutes with float().", "quantifier": "every class, number, array (any shape), unit, chain of conversions, index, slice and unit conversion", "why_tests_cant": "all shapes, numbers, units and subscripts", "anchors": ["src/eprempy/measured/_factories.py", "src/eprempy/measured/_value.py, _sequence.py, _convert.py, _context.py", "src/eprempy/quantity/_measurement.py", "src/eprempy/quantity/__init__.py: measure", "src/eprempy/physical/_object_factories.py, _scalar.py, _vector.py, _tensor.py", "src/eprempy/parameter/_runtime.py: Variable, variable_factory"]}
{"id": "C79", "title": "The configfile command", "statement": "eprempy configfile compares every distinct file once, in the order given and under distinct labels (numbers, or paths below the deepest common directory). For every parameter, in alphabetical order (with --diff exactly for those that two columns display differently), it prints the default and in each column the value if the file sets it and '(default)' otherwise, in a table of equally long lines. --generate writes a file that sets every parameter and nothing else, and that reads back as the sorted table of the texts of the defaults; a run with this file has the defaults that are numbers or texts. Unknown modes and missing files raise.", "quantifier": "every list of files, their paths and settings, every table of parameters and displayed texts, both options", "why_tests_cant": "all files, paths, parameters and texts", "anchors": ["src/eprempy/cli.py: run, generate_config_file, compare_config_files, _build_arg_dict, _map_parameter, _normalize_paths, _get_arg_value", "src/eprempy/parameter/_config.py: ConfigFile", "src/eprempy/parameter/_runtime.py: interface"]}
{"id": "C80", "title": "Numeric operators by name", "statement": "Looking up any canonical name or alias of an operator gives that operator; calling the collection with a name applies the operator to the arguments, with the name of a group applies every operator of the group in order; unknown names raise ValueError. Calling a group gives one entry per operator under its name, with operators of one argument applied to each of several arguments. generate gives each operator named directly or through a group once, without those excluded by canonical name. The special methods built by name compute op(self, other), the reflected ones op(other, self). The frozen form of any aliased mapping with key groups answers every key as the mapping did.", "quantifier": "every name, alias, group, list of arguments, list of names and exclusions, iteration order of sets, and every aliased mapping with key groups", "why_tests_cant": "all names, arguments and mappings", "anchors": ["src/eprempy/numeric/_operations.py: _build_operators, Mapping, resolve", "src/eprempy/numeric/_operators.py", "src/eprempy/aliased.py: MutableMapping.freeze"]}
{"id": "C81", "title": "Custom operators and numpy functions of numeric objects", "statement": "After any history of registrations, an operator asked of an object - by any of its names or by function - is answered by the function registered last for its class, and by nothing if there is none; registrations for classes with another collection make no difference. a op b asks the left operand and then, if it has no answer and the classes differ, the right one, both with the arguments in the order written; comparisons ask the right operand the mirrored question; no answer is a TypeError (identity for == and !=). A numpy function of an array, numbers and plain arrays is numpy's function of the data, or the array operator if one is registered.", "quantifier": "every family of classes, history of registrations, operator, pair of operands, registered function, numpy function and list of arguments", "why_tests_cant": "all histories, classes and arguments", "anchors": ["src/eprempy/numeric/_mixins.py: Functions, Operators", "src/eprempy/numeric/_implementation.py: unary, binary, doublet", "src/eprempy/real/_array.py: Array", "src/eprempy/numeric/_index.py: Object, implements"]}
{"id": "C82", "title": "Factories of numeric objects", "statement": "After any history of registrations, making an object of a class uses the factory registered last for this very class, or the class itself if there is none; the base classes have none. A registered factory raises ValueError exactly if it is given an existing object and a value other than None for a keyword that was not declared mutable; in all other cases it is the function. strict without names refuses every change of an existing object, with names exactly changes of those.", "quantifier": "every history of registrations, class, factory, declaration of mutable keywords, argument and keyword values", "why_tests_cant": "all histories and arguments", "anchors": ["src/eprempy/numeric/_objects.py: Registry, Mixin, _wrap_factory", "src/eprempy/numeric/_factory.py: strict, returns, _check_metadata"]}
{"id": "C83", "title": "The run log is a mapping on disk", "statement": "The log of a project is a mapping from run paths to records kept in one file. Creating a record stores exactly the given attributes and changes no other record; moving, removing and appending change only the named records; looking up, listing and counting agree with the file. An unknown run raises LogKeyError, and whatever raises an error leaves the file as it was. Loading a record from a file accepts exactly JSON and YAML types. A damaged or missing file is reported by every request and never overwritten.", "quantifier": "every contents of the log file and the rest of the disk, every sequence of requests, key, record, value and source file", "why_tests_cant": "all contents and requests", "anchors": ["src/eprempy/project.py: RunLog"]}
{"id": "C84", "title": "Listing, showing, resetting and removing a project", "statement": "project.runs lists each run once with exactly the branches that hold it, project.branches is the same relation by branch; show prints exactly the directories of a run. After reset no run is left on disk or in the log and nothing else has changed; remove deletes the project directory and nothing else, and makes the object false. The name of a project is that of its directory and two objects for the same project are equal.", "quantifier": "every project on disk, branches, run names and histories before the call", "why_tests_cant": "all states of the disk", "anchors": ["src/eprempy/project.py: RunPaths.runs, RunPaths.branches, RunPaths.resolve, Interface.show, Interface.reset, Interface.remove, Interface.name, Interface.__eq__"]}
{"id": "C85", "title": "Physical constants are the same quantity in every metric system", "statement": "universal.Constants('mks') and universal.Constants('cgs') contain the same names, with the same quantity and description. For each name, the unit in each system has the dimension of that physical quantity, and the constant of one system, converted to the unit of the other with the package's own conversions, is the constant of the other, whatever was converted before. System names may be in any case; unknown names raise KeyError.", "quantifier": "every constant, both systems in any case, any string as system or name, any history of conversions", "why_tests_cant": "a test repeats numbers of the table; here the numbers are related to physical dimensions and to the conversion code, for every history", "anchors": ["src/eprempy/universal.py: _constants, _normalize, CONSTANTS, Constants, Constant", "src/eprempy/metric/_reference.py: _CONVERSIONS"]}
{"id": "C86", "title": "Views of datafiles: one view per file, whose contents stay what they were", "statement": "At any two times, requests for a view of a datafile give the same object exactly if they are for the same path; a path that does not exist is refused, even if there is a view of it. A view reads nothing until one of its properties is used; then it shows what is on disk at that time. Whatever happens to the files afterwards, a value that was read never changes, and all properties of the view describe one and the same file. A read that cannot open the file leaves no trace. view['name'] is the property, or KeyError.", "quantifier": "every sequence of writing, replacing and removing files, asking for views with any hints and reading properties; every file", "why_tests_cant": "the order of file changes, requests and reads is unbounded; tests read one file once", "anchors": ["src/eprempy/datafile/_viewers.py: View, view_factory, View.viewer, View.arrays, View.scalars, View.axes, View.sizes, View.units", "src/eprempy/paths.py: PathSet", "src/eprempy/etc.py: PathSet"]}
{"id": "C87", "title": "Aliases given beside the values", "statement": "When aliases are given to an aliased mapping as groups, as another aliased mapping, as a table from names to aliases, or as an entry inside each value, a name is known exactly when it is a key or an alias of one, and it gives the value of that key (without the entry that lists the aliases). Mappings made by fromkeys know exactly the names of the keys. Merging two aliased mappings gives the second one's values to its names and the first one's to all others. Two aliased mappings are equal exactly when they have the same names with equal values, however the names are grouped. squeeze replaces each value that holds one entry by that entry's value, or changes nothing. alias lists exactly the other names of the same entry. Frozen mappings keep all names and values. The views of keys, values and items show the mapping as it is now.", "quantifier": "every mapping and every way of giving aliases; all pairs of mappings; all histories of assignments, deletions and new aliases before a view is read", "why_tests_cant": "tests try the mappings of the documentation; they cannot cover all groupings of names, all merges, or all changes made between creating a view and reading it", "anchors": ["src/eprempy/aliased.py: Mapping.__init__, Mapping._build_dict, keysfrom, _build_mapping, _build_from_key, Mapping.fromkeys, Mapping.squeeze, Mapping.alias, Mapping.__eq__, Mapping.__or__, MappingView, MutableMapping.freeze"]}
{"id": "C88", "title": "A project can be created and opened", "statement": "Interface(root, ...) on a path where nothing exists creates the project with the given settings and returns it, with a script __main__.py made from the package's template; opening the directory again gives the same project.", "quantifier": "every disk, path, choice of branches and names, directory of the package and name under which the module is loaded", "why_tests_cant": "there is no test that creates a project; a test would settle one disk and one set of names, and not what is left behind and whether later attempts can succeed", "anchors": ["src/eprempy/project.py: Interface.__init__, Interface._setup_cli, Interface._get_attrs", "src/eprempy/_project_main.py"]}
{"id": "C89", "title": "Command lines do what they say", "statement": "Each subcommand (run, mv, rm of a project's script; create, reset, rename, remove, show of eprempy.project; configfile of the package) accepts exactly the lines that are written correctly: bare arguments are taken in order, options may stand anywhere and are named by either spelling, the last one for a setting counts, settings that are not given have their defaults, options that exclude each other are refused together. The operation is then performed on the named project in the named branches, raising unless -f is given. Names of runs given to show are the runs that are shown; the order of options and arguments does not matter; a line without a subcommand is a usage error.", "quantifier": "every command line over the documented options (arguments of any content and number, in any order), every disk and project", "why_tests_cant": "there are no tests of these parsers; the space of command lines is infinite and the failures depend on the order of options and on the contents of arguments", "anchors": ["src/eprempy/interfaces.py: CLI.run, CLI.include", "src/eprempy/_project_main.py: run, mv, rm", "src/eprempy/project.py: create, reset, rename, remove, show", "src/eprempy/__main__.py", "src/eprempy/cli.py: run, run_configfile_subparser"]}
{"id": "C90", "title": "Files are searched for in the places given, in order", "statement": "paths.search(file, *dirs) returns the file in the first of the given directories, then of the current directory, that holds it, and None if none does; it fails only for a place that does not exist. paths.find_file_by_template returns the file of the first template that exists in the directory (by default the current one). A place that does not exist does not hide later ones. paths.file_lines counts the lines, whatever the line ends are.", "quantifier": "every file system, current directory, list of places and templates, file name (relative or absolute), text", "why_tests_cant": "the result depends on an arbitrary file system and order of places; tests can only arrange a few", "anchors": ["src/eprempy/paths.py: fullpath, search, find_file_by_template, file_lines"]}
{"id": "C91", "title": "Printed tables show every value in its column", "statement": "Table.show(names) prints a header, a row of dashes and one line per entry, in order. The columns are the requested names that every entry has, each once, in the order requested; in every line a column takes the same number of characters, four more than the longest of its name and values, and shows its text centred. Without names nothing is printed; an entry that cannot be shown prints nothing at all rather than half a table. Values of every type are shown, and an empty table prints nothing.", "quantifier": "every table (any number of entries and keys, any texts and numbers) and every list of names, with repetitions and unknown names", "why_tests_cant": "alignment depends on all widths at once; a test can look at single tables only", "anchors": ["src/eprempy/container.py: Table.show, Table.keys"]}
{"id": "C92", "title": "Every name of a quantity or parameter means one thing", "statement": "A text names at most one quantity and at most one parameter. QUANTITIES gives the same physical quantity for every name of a quantity, and KeyError for other texts. build(names) or build(subset=...) gives, for names of different quantities, reference information in which every name of a chosen quantity stands for the chosen name and belongs to the group of exactly that quantity's names, and every other text stands for itself; two names of one quantity are refused; the four shipped collections can be built. A value given to an observable under one name of a quantity or parameter is found under all its names and under no other.", "quantifier": "every text as a name, every list of names given to build, every collection of arguments", "why_tests_cant": "names are looked up by arbitrary texts, and any list of names may be given; tests try single names", "anchors": ["src/eprempy/reference.py: _metadata, QUANTITIES, ALIASES, build, ARRAYS, SCALARS, AXES, OBSERVABLES", "src/eprempy/parameter/_metadata.py: _metadata, ALIASES", "src/eprempy/observable/_objects.py: Arguments.__init__, Arguments.assumptions", "src/eprempy/aliased.py: NameMap"]}
{"id": "C93", "title": "Arguments of any kind are recognised, paired and compared", "statement": "hastype(x, types, *wrappers) is true exactly if x is of one of the types, or is a collection of one of the wrapper types with a member (with strict=True: with only members) of one of the types; a strict test that succeeds implies the other. find_first(type, *args) is the first argument of the type, or none. distribute(a, b) pairs every member of a with every member of b, in order, treating a single object as one member. A Wrapper holds exactly the members it was given, and two are equal if they hold the same. doc2help gives the first line of a documentation text (as a phrase: without capital first letter and final dots), after the replacements in order, and a usable text for an object without documentation.", "quantifier": "all classes and objects, any nesting of wrapper types, any two collections (also of different kinds), any documentation text and replacements", "why_tests_cant": "tests try a few classes and lists; they cannot settle emptiness, order and repetition for every collection, nor all texts", "anchors": ["src/eprempy/container.py: hastype, find_first, distribute, isseparable, Wrapper", "src/eprempy/etc.py: doc2help"]}
{"id": "C94", "title": "Equal objects can replace each other in sets and as keys", "statement": "Two objects that compare equal have the same hash, so a set or a mapping that holds the one also finds the other: a set made from operators, terms, expressions, dimensions or named units holds every value once, however often and in whatever order it was added, and membership in it is equality with one of the added objects. This includes objects that compare equal to a text or a number, units, and groups of aliases.", "quantifier": "every pair of comparable objects, every sequence of additions to a set, every hash function of the built-in types", "why_tests_cant": "equality and hash are separate functions over infinitely many objects; a test compares a few pairs", "anchors": ["src/eprempy/symbolic/_operator.py: Operator.__eq__, __hash__", "src/eprempy/symbolic/_operand.py: Operand.__eq__, Term.__eq__, Term.__hash__", "src/eprempy/symbolic/_expression.py: Expression.__eq__, __hash__", "src/eprempy/metric/_units.py: Unit.__eq__", "src/eprempy/metric/_defined.py: NamedUnit.__eq__, __hash__", "src/eprempy/aliased.py: Group.__eq__, __hash__", "src/eprempy/numeric/_array.py: Dimensions.__eq__, __hash__", "src/eprempy/etc.py: _SentinelType.__eq__, __hash__"]}
{"id": "C95", "title": "Shifting one unit to another gives the conversion factor", "statement": "u >> v, for units or texts with at least one unit, is the factor of the conversion from u to v, and u << v that of the conversion from v to u; for named units (or one and a text) it is the ratio of their sizes. x >> y and y << x are always the same. Once x >> y has an answer, y >> x and x << y answer with its inverse and x >> y answers the same again, after any earlier conversions. A unit shifted to itself gives 1. Where the ratio of two named units exists, units, named units and texts give the same number, the quotient of the SI sizes. All other pairs, also a unit with a named unit, are a TypeError.", "quantifier": "all units, named units, texts and other objects on either side, and every history of earlier conversions in the session", "why_tests_cant": "answers come from a cache filled by earlier requests; tests see one history and a few pairs", "anchors": ["src/eprempy/metric/_units.py: Unit.__rshift__, __rrshift__, __lshift__, __rlshift__", "src/eprempy/metric/_defined.py: NamedUnit.__rshift__, __rrshift__, __lshift__, __rlshift__, ratio", "src/eprempy/metric/_conversions.py: conversion_factory, Conversion.__float__"]}
{"id": "C96", "title": "Derived observables are the formulas of the observed components", "statement": "For any constraints and assumptions under which the stored components are observed: an observed x, y or z is r sin(theta) cos(phi), r sin(theta) sin(phi) or r cos(theta) at every point; an observed magnitude of the magnetic field or of the velocity is the root of the sum of the squares of the three observed components; an observed parallel velocity is the scalar product of the two vectors over the magnitude of the field, and the perpendicular one the root of what is left, so that (with exact roots) its square and that of the parallel one add up to the square of the velocity. Each is an array with the axes and lengths of the radial component and a unit of the size of that component's unit, whatever units the components are in; the angle of whole arrays is the inverse cosine of the scalar product over the magnitudes, brought into the range from -1 to 1.", "quantifier": "every dataset (any number of times and shells, any values, any units with angles in radians), all constraints, every numeric sine, cosine, root and inverse cosine", "why_tests_cant": "the values are combined element by element with units and named axes, over arrays of any size and under any constraints; tests compare a few arrays", "anchors": ["src/eprempy/observable/_interfaces.py: Functions.x, y, z, bmag, umag, ubmag, angle, uperp, upara, udotb", "src/eprempy/observable/_interfaces.py: Quantities.x, y, z, bmag, umag, upara, uperp", "src/eprempy/physical/_operations.py"]}
{"id": "C97", "title": "Source files as text", "statement": "The full text of a source file (tostring with mode 'full') is a Python assignment to BASETYPES_H or CONFIGURATION_C, read by the rules for texts, words and marks, of a dictionary with one dictionary per parameter, in the order of the file or sorted by name. A parameter has each attribute once: that of the package's metadata if there is one, otherwise that of the file; its type stands as a name without quotation marks. A constant has its computed value and its metadata. Texts with quotation marks, backslashes, line ends or other special characters are read back unchanged, for every indentation; texts that differ in any name, attribute, value or order differ. Each entry takes one opening line, one line per attribute (indented twice as far) and one closing line. Without a mode the text can be read the same way.", "quantifier": "every table of constants and parameters that can be loaded, all metadata, all texts in Latin-1, every indentation, sorted or not", "why_tests_cant": "the text must be readable for every table and every special character; tests compare one text", "anchors": ["src/eprempy/parameter/_src.py: SourceFile.todict, tolines, tostring", "src/eprempy/parameter/_src.py: BaseTypesH.get, tostring", "src/eprempy/parameter/_src.py: ConfigurationC.get, tostring"]}
{"id": "C98", "title": "Printed forms of objects", "statement": "An object of a class decorated by autostr, or derived from one, is shown by repr as the name of its own class around the text that str shows, if that class or a parent of it provides the text; without a text both show the name, never an endless recursion. A repr or str that a class defines itself is kept. With str2repr, too, objects of derived classes are shown with their text. apply returns the first result that counts as true, calls no method after it, returns None if there is none, and passes on an error that comes first.", "quantifier": "all hierarchies of classes, with any texts; all lists of methods", "why_tests_cant": "which of the generated and inherited methods calls which depends on the whole hierarchy; tests print a few objects", "anchors": ["src/eprempy/etc.py: autostr, _autostr_default, _defines_str, str2repr, apply"]}
