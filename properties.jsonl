{"id": "C01", "title": "Fresh object identifiers never repeat", "statement": "Every object created receives, before any explicit renumbering, an identifier that no earlier creation in the process received; the identifiers drawn are consecutive and positive, whatever else happens in between (switching object recording on or off, renumbering objects, clearing the registry, replaying commands).", "quantifier": "all histories of create / renumber / toggle recording / clear registry / replayed creations, of any length", "why_tests_cant": "uniqueness is over unbounded histories and interleavings of the six operations", "anchors": ["gsp/object.py: OID.__new__, Object.__init__, Object.id setter", "gsp/io/command.py: Command.execute"]}
{"id": "C02", "title": "The registry is coherent with the objects", "statement": "Looking an identifier up in the object registry can only return an object whose own id is that identifier, so one object is never reachable under two identifiers; this holds after any history.", "quantifier": "all histories of create / renumber / toggle / clear / replayed creations", "why_tests_cant": "renumbering onto ids in use, or of unregistered objects, gives unboundedly many aliasing cases", "anchors": ["gsp/object.py: Object.__init__, Object.id setter", "gsp/io/command.py: Command.execute"]}
{"id": "C03", "title": "Renumbering an object moves it and nothing else", "statement": "Assigning obj.id = n for a registered object makes it reachable under n and unreachable under its old id; every other identifier except n keeps exactly its previous entry. If n was already taken by another object, that other object becomes unreachable.", "quantifier": "all registry states reachable by a history, all objects, all new ids including ids already in use", "why_tests_cant": "the frame condition (nothing else changes) is over the whole registry", "anchors": ["gsp/object.py: Object.id setter"]}
{"id": "C04", "title": "Replaying creations restores every recorded identifier", "statement": "After replaying a list of recorded creations, every recorded identifier resolves to the object created for it.", "quantifier": "all lists of distinct recorded ids, all counter positions, all prior registries", "why_tests_cant": "depends on the relation between the process-wide id counter and every id in the replayed list", "anchors": ["gsp/object.py: OID.__new__, Object.id setter", "gsp/io/command.py: Command.execute"]}
{"id": "C05", "title": "Objects that compare equal hash equal", "statement": "If a == b for two protocol objects then hash(a) == hash(b), and == is symmetric.", "quantifier": "all pairs of objects with arbitrary classes and attribute dictionaries", "why_tests_cant": "ranges over all attribute contents", "anchors": ["gsp/object.py: Object.__hash__, Object.__eq__"]}
{"id": "C06", "title": "Registering a converter never replaces another", "statement": "A successful registration for (source, destination) makes that function the one found for the pair and leaves every other pair untouched; registering a pair that is already registered raises TypeError and changes nothing. Over any history of register / unregister calls the converter found for a pair is the one of the first registration after the last unregistration.", "quantifier": "all histories of register/unregister calls over all names", "why_tests_cant": "history property over an unbounded registry", "anchors": ["gsp/io/convert.py: register, unregister, is_registered"]}
{"id": "C07", "title": "Registering several sources at once is all-or-nothing", "statement": "When register((s1,...,sn), dst) raises, the converter registry is as it was before the call.", "quantifier": "all tuples of source types, all registries", "why_tests_cant": "fails only for particular overlaps between the tuple and the registry", "anchors": ["gsp/io/convert.py: register"]}
{"id": "C08", "title": "Converter lookup order", "statement": "A converter is looked up first for the exact source type, then for the wildcard source '*', then for the direct bases of the value's class in order (each with its wildcard); the lookup returns nothing exactly when none of these is registered, and convert() then raises ValueError.", "quantifier": "all registries, all values (ordinary values, types, strings naming a type), all destination names", "why_tests_cant": "the cases multiply over registry contents and class hierarchies", "anchors": ["gsp/io/convert.py: is_registered, get_converter, convert"]}
{"id": "C09", "title": "Data-type descriptions survive conversion to text and back", "statement": "Converting a numpy dtype description to its text form and back yields an equal description.", "quantifier": "all dtypes: scalar, fixed-size vectors, and structured with any number of named fields", "why_tests_cant": "the codec splits on ',' and ':' so correctness depends on every character of every field name and on every shape", "anchors": ["gsp/io/convert.py: numpy_dtype_to_str, numpy_str_to_dtype"]}
{"id": "C10", "title": "A recorded command carries exactly the arguments of the call", "statement": "When a decorated method is called with arguments none of which is a protocol object, the recorded command's parameters are the receiver's id plus, for every parameter of the method, exactly the value Python binds to it (positional, then keyword, then default), each parameter once.", "quantifier": "all method signatures with defaults, all positional/keyword argument combinations Python accepts", "why_tests_cant": "ranges over all signatures and all ways of passing arguments", "anchors": ["gsp/io/command.py: command (decorator), get_default_args"]}
{"id": "C11", "title": "A protocol object passed as argument is still passed on replay", "statement": "If a method was called with a protocol object for some parameter, executing the recorded command passes the object registered under that object's id for the same parameter.", "quantifier": "all signatures, all calls with object arguments, all registries", "why_tests_cant": "depends on how the renamed '(id)' keys interact with the defaults of every signature", "anchors": ["gsp/io/command.py: command (decorator), Command.__init__, Command.execute"]}
{"id": "C12", "title": "Argument type checking", "statement": "A recorded call is rejected with ValueError exactly when some annotated argument (not None) is neither an instance of one of the annotated types nor convertible from one of its classes to one of them; a rejected call records nothing, leaves every queue untouched, yet its side effects have already taken place.", "quantifier": "all annotations, class hierarchies, registered converters and argument values", "why_tests_cant": "ranges over all annotations and registries", "anchors": ["gsp/io/command.py: command (decorator)"]}
{"id": "C13", "title": "Recording switch", "statement": "While global recording is off no call changes any command queue and every call returns what the undecorated method returns; switching recording back on resumes recording. A call marked __no_command__ is never recorded.", "quantifier": "all histories of calls and switches", "why_tests_cant": "history property", "anchors": ["gsp/io/command.py: record, command (decorator)"]}
{"id": "C14", "title": "The active queue is the log of recorded calls", "statement": "After any history of calls, queue selections, record switches and read-only switches, the commands in each queue are, in call order, exactly those calls made while that queue was active, writable, recording was on, the call was not marked __no_command__ and passed type checking; command ids in a queue are strictly increasing.", "quantifier": "all histories over any number of queues", "why_tests_cant": "history property over interleavings of queue selection and recording state", "anchors": ["gsp/io/command.py: CommandQueue, command (decorator), CID"]}
{"id": "C15", "title": "Read-only queues do not change", "statement": "While a queue is read-only, pushes are refused (return False) and neither pushes nor decorated calls change its contents.", "quantifier": "all sequences of pushes and calls", "why_tests_cant": "history property", "anchors": ["gsp/io/command.py: CommandQueue.push, command (decorator)"]}
{"id": "C16", "title": "Running a queue executes it in order and leaves it unchanged", "statement": "Running a queue executes its commands one after the other in order, each once; the queue's contents and its read-only flag are the same after run returns, and also after run raises.", "quantifier": "all queues, all backends, all failure positions", "why_tests_cant": "every prefix is a possible failure point", "anchors": ["gsp/io/command.py: CommandQueue.run"]}
{"id": "C17", "title": "Running a queue does not alter any other queue", "statement": "Running a queue leaves the contents of all other queues unchanged.", "quantifier": "all queues and choices of active queue", "why_tests_cant": "depends on which queue is active while running and on what the executed methods record", "anchors": ["gsp/io/command.py: CommandQueue.run, command (decorator)"]}
{"id": "C18", "title": "Named queues are singletons", "statement": "Asking for a queue by the same name always returns the same queue, different names return different queues, and 'active' (or None) returns the most recently created queue; asking for an existing queue changes nothing.", "quantifier": "all histories of queue requests", "why_tests_cant": "history property with first-use special cases", "anchors": ["gsp/io/command.py: NamedSingleton.__call__, CommandQueue.__init__"]}
{"id": "C19", "title": "Recorded constructors can be executed", "statement": "Executing a recorded constructor command builds the object with the recorded arguments, gives it the recorded id and registers it under that id - both directly from the recording queue and after saving to and loading from a file.", "quantifier": "all constructor commands (dotted names included), all backends", "why_tests_cant": "the two paths differ in a branch taken only for particular method names", "anchors": ["gsp/io/command.py: Command.execute", "gsp/io/json.py: load, dump_command"]}
{"id": "C20", "title": "Saving and loading a queue preserves its commands", "statement": "Saving a queue and loading it back gives the same number of commands in the same order, with the same target method, the same object id and the same parameter names and (JSON-encoded) values; command ids are renewed in increasing order.", "quantifier": "all queues, method names and parameter dictionaries", "why_tests_cant": "ranges over all command contents, including names with '.' and '/'", "anchors": ["gsp/io/json.py: dump_command, dump, load"]}
{"id": "C21", "title": "Loading fills the queue it was given", "statement": "load(filename, queue) replaces the contents of the queue passed in and of no other.", "quantifier": "all queues (empty or not, read-only or not) and files", "why_tests_cant": "fails only for particular queue states", "anchors": ["gsp/io/json.py: load, dump"]}
{"id": "C22", "title": "Binary buffer contents survive the text encoding", "statement": "Buffer bytes encoded when a command queue is saved and decoded when the backend rebuilds the buffer are identical to the original bytes.", "quantifier": "all byte strings of any length", "why_tests_cant": "all lengths modulo 3 and all byte values", "anchors": ["gsp/io/json.py: default", "gsp_matplotlib/core/buffer.py: Buffer.__init__"]}
{"id": "C23", "title": "A failed load leaves the session intact", "statement": "If gsp.load raises because the format is unknown, the registered objects and the active queue are as before.", "quantifier": "all session states, all file names", "why_tests_cant": "depends on the order of effects before the error", "anchors": ["gsp/__init__.py: load"]}
{"id": "C24", "title": "Ragged arrays: items partition the data", "statement": "A ragged array built from data and item sizes has one item per size, item i is the i-th consecutive slice of the data of that size, concatenating the items gives the data back, and sizes that do not match the data are rejected with ValueError.", "quantifier": "all data, all uniform and per-item size lists", "why_tests_cant": "all sizes and counts including zero", "anchors": ["gsp_matplotlib/glm/ndarray/ragged.py: ragged.__init__, __len__, __getitem__, itemsize"]}
{"id": "C25", "title": "Ragged arrays: writing an item touches only that item", "statement": "Assigning to item i changes item i to the given values and leaves every other item unchanged; assignment never changes the number or the sizes of items.", "quantifier": "all ragged arrays, indices (negative included) and values", "why_tests_cant": "frame condition over all other items", "anchors": ["gsp_matplotlib/glm/ndarray/ragged.py: ragged.__setitem__"]}
{"id": "C26", "title": "Ragged arrays: slices follow list semantics", "statement": "R[a:b:c] returns the concatenation of the items a list of items sliced the same way would give.", "quantifier": "all slices", "why_tests_cant": "fails only for particular steps/empty ranges", "anchors": ["gsp_matplotlib/glm/ndarray/ragged.py: ragged.__getitem__"]}
{"id": "C27", "title": "Tracked arrays: every modified byte is reported", "statement": "After writing through a tracked array or a view of it, all bytes whose value changed since the last clear lie within the dirty extent reported by the base array.", "quantifier": "all base shapes, chains of views (any strides), writes and clears", "why_tests_cant": "soundness over all view geometries and write histories", "anchors": ["gsp_matplotlib/glm/ndarray/tracked.py: __array_finalize__, __getitem__, __setitem__, dirty, clear, _compute_extents, _update"]}
{"id": "C28", "title": "Tracked arrays: the tracker receives the new contents", "statement": "Replaying on a copy of the initial contents the (offset, bytes) updates a tracked array sends to its tracker yields the array's current contents.", "quantifier": "all histories of item assignments and in-place operations", "why_tests_cant": "mirror consistency over histories", "anchors": ["gsp_matplotlib/glm/ndarray/tracked.py: __setitem__, __iadd__ ...", "gsp_matplotlib/__init__.py: Tracker"]}
{"id": "C29", "title": "Swizzle reads", "statement": "Reading v.<components> returns for each element the named components in the named order.", "quantifier": "all vectors of 2 to 4 components, all lengths, all swizzle strings (repetitions included)", "why_tests_cant": "all strings over the component alphabet", "anchors": ["gsp_matplotlib/glm/ndarray/swizzle.py: swizzle"]}
{"id": "C30", "title": "Swizzle writes", "statement": "Assigning to v.<components> sets exactly the named components of every element (to the scalar, to one value per component, to one row per element) and leaves the other components unchanged; reading the same components back returns what was written.", "quantifier": "all vectors, swizzle strings without repetition, all value shapes numpy accepts", "why_tests_cant": "ambiguity appears only when the number of elements equals the number of values", "anchors": ["gsp_matplotlib/glm/ndarray/swizzle.py: swizzle"]}
{"id": "C31", "title": "Copying a transform yields an independent equal transform", "statement": "t.copy() has the same structure as t, shares no transform with it, and evaluates to the same value; later changes to one do not affect the other.", "quantifier": "all transform graphs: accessors, measures, operators with constants or transforms on either side, chains", "why_tests_cant": "structural property over all expression trees", "anchors": ["gsp/transform/transform.py: copy", "gsp/transform/operator.py: Operator.copy", "gsp/transform/measure.py", "gsp/transform/colormap.py: copy", "gsp/transform/out.py: copy"]}
{"id": "C32", "title": "Building expressions does not modify the operands", "statement": "Combining transforms with +, -, *, / and calling one transform on another never modifies the transforms used as operands, and the result evaluates to the operation applied to what the operands evaluate to.", "quantifier": "all transform expressions", "why_tests_cant": "all nestings and sharing patterns", "anchors": ["gsp/transform/transform.py: __call__, __add__...", "gsp/transform/operator.py"]}
{"id": "C33", "title": "Chaining transforms composes them", "statement": "t1(t2(...(tn))) evaluated on a buffer applies all the transforms of the chain in order, innermost first.", "quantifier": "all chains", "why_tests_cant": "chains of any length", "anchors": ["gsp/transform/transform.py: __call__, base, last"]}
{"id": "C34", "title": "A transform can be bound once", "statement": "Calling a transform on a buffer binds it; calling a bound transform on a buffer again raises ValueError and the original binding is kept; binding never modifies the original transform.", "quantifier": "all transforms and buffers", "why_tests_cant": "history property", "anchors": ["gsp/transform/transform.py: __call__, bound", "gsp/transform/operator.py: bound", "gsp/transform/measure.py: __mul__"]}
{"id": "C35", "title": "Units of measure are mutually consistent", "statement": "For the same resolution, 1 inch = 2.54 cm = 25.4 mm = 72 points, 1 m = 100 cm, 1 km = 1000 m, and a measure scales linearly with the value.", "quantifier": "all values and resolutions", "why_tests_cant": "equalities over all rationals", "anchors": ["gsp/transform/measure.py"]}
{"id": "C36", "title": "Setting a visual variable", "statement": "set_variable(name, v) makes get_variable(name) return v (or the output array updated in place for output variables), changes no other variable, and raises IndexError for unknown names without changing anything.", "quantifier": "all variable tables and histories of assignments", "why_tests_cant": "history property with frame condition", "anchors": ["gsp/visual/visual.py: set_variable, get_variable, eval_variable"]}
{"id": "C37", "title": "Output variables shadow input variables during evaluation", "statement": "A variable defined by a transform is evaluated against the visual's current output values and, for names without an output, against the input values; evaluation order does not matter.", "quantifier": "all variable tables", "why_tests_cant": "depends on the render-time order of updates", "anchors": ["gsp/visual/visual.py: eval_variable, render"]}
{"id": "C38", "title": "Drawing order is a depth-sorted permutation that keeps attributes attached", "statement": "When a visual is rendered, every item is drawn exactly once, items are drawn back to front, and each item is drawn with its own size, colours and widths whatever the order.", "quantifier": "all item counts, all depth values including ties, all per-item attribute lists", "why_tests_cant": "over all permutations", "anchors": ["gsp_matplotlib/visual/points.py", "gsp_matplotlib/visual/markers.py", "gsp_matplotlib/visual/pixels.py", "gsp_matplotlib/visual/segments.py", "gsp_matplotlib/visual/paths.py", "gsp_matplotlib/visual/polygons.py"]}
{"id": "C39", "title": "Rendering leaves change tracking as it was", "statement": "After render returns or raises, array change tracking is enabled iff it was before.", "quantifier": "all render outcomes", "why_tests_cant": "every raise point", "anchors": ["gsp_matplotlib/visual/*.py: render"]}
{"id": "C40", "title": "Path and polygon grouping forms are equivalent", "statement": "Grouping vertices into paths by a uniform size, by a list of sizes or by explicit index lists describing the same partition produces the same groups; together the groups cover all the vertices exactly once in order when sizes add up.", "quantifier": "all vertex counts and groupings", "why_tests_cant": "all sizes incl. non-dividing", "anchors": ["gsp_matplotlib/visual/paths.py: render", "gsp_matplotlib/visual/polygons.py: render", "gsp/visual/paths.py", "gsp/visual/polygons.py"]}
{"id": "C41", "title": "SVG paths: parsed output is a well-formed path", "statement": "Parsing any SVG path description either raises an error or yields a vertex list and a code list of the same length in which curve codes come in complete groups.", "quantifier": "all path strings", "why_tests_cant": "all token sequences", "anchors": ["gsp/core/svg.py: _parse_path, _tokenize_path"]}
{"id": "C42", "title": "SVG paths: relative and absolute commands agree", "statement": "A relative command produces the same path as the absolute command with the current point added to its coordinates, for every command and state.", "quantifier": "all commands, coordinates and prefixes", "why_tests_cant": "all command sequences", "anchors": ["gsp/core/svg.py: _parse_path"]}
{"id": "C43", "title": "SVG paths: normalised into the unit square", "statement": "The vertices returned by svg_to_path lie in [-0.5,0.5]^2 and touch both extremes in x and y.", "quantifier": "all non-degenerate vertex lists", "why_tests_cant": "all vertex sets", "anchors": ["gsp/core/svg.py: svg_to_path"]}
{"id": "C44", "title": "Rotations are rotations", "statement": "xrotate, yrotate, zrotate and rotate (about any nonzero axis) return matrices M with M M^T = I, determinant 1, that fix their axis, and compose additively in the angle.", "quantifier": "all angles and axes", "why_tests_cant": "all reals", "anchors": ["gsp_matplotlib/glm/glm.py: xrotate, yrotate, zrotate, rotate"]}
{"id": "C45", "title": "Projection matrices map the viewing volume to the canonical cube", "statement": "ortho(l,r,b,t,n,f), frustum(...) and perspective(...) map the corners of their viewing volume onto the corners of [-1,1]^3.", "quantifier": "all volumes with distinct bounds", "why_tests_cant": "all reals", "anchors": ["gsp_matplotlib/glm/glm.py: ortho, frustum, perspective"]}
{"id": "C46", "title": "Rigid and affine helpers act as documented", "statement": "translate, scale, viewport, lookat and align act on points as documented for all parameters, and the inverse parameters undo them; lookat sends the eye to the origin and the target onto the -z axis and is rigid; align maps U onto V.", "quantifier": "all parameters", "why_tests_cant": "all reals", "anchors": ["gsp_matplotlib/glm/glm.py: translate, scale, viewport, lookat, align"]}
{"id": "C47", "title": "Trackball rotation stays a rotation", "statement": "After any sequence of drags and direct assignments of angles the trackball's model matrix is a rotation (orthogonal, determinant 1).", "quantifier": "all drag histories of any length", "why_tests_cant": "unbounded histories", "anchors": ["gsp_matplotlib/glm/trackball.py"]}
{"id": "C48", "title": "Vector conversions", "statement": "to_vec2/to_vec3/to_vec4 follow their documented conventions; to_vec3(to_vec4(v)) = v and to_vec2(to_vec3(v)) = v for all v; shapes that cannot be converted raise TypeError.", "quantifier": "all arrays of any length", "why_tests_cant": "all contents and shapes", "anchors": ["gsp_matplotlib/glm/vec234.py: to_vec2, to_vec3, to_vec4"]}
{"id": "C49", "title": "frontback splits triangles in two complementary sets", "statement": "Every triangle is classified either front or back, never both, order preserved; reversing orientation swaps strictly front triangles.", "quantifier": "all triangle lists", "why_tests_cant": "all coordinates", "anchors": ["gsp_matplotlib/glm/glm.py: frontback"]}
{"id": "C50", "title": "Generated shapes are valid meshes", "statement": "sphere(n) yields indices all within the vertex array for every n and every grid cell is covered by exactly two triangles; the polyhedra tables index only existing vertices.", "quantifier": "all resolutions", "why_tests_cant": "all n", "anchors": ["gsp_matplotlib/glm/shapes.py"]}
{"id": "C51", "title": "Viewport placement", "statement": "Integer coordinates are pixels, floating coordinates are fractions of the canvas and the same place expressed both ways gives the same viewport; a viewport lying within the canvas yields normalised extents within [0,1].", "quantifier": "all canvas sizes and viewport coordinates, including 0", "why_tests_cant": "special value 0", "anchors": ["gsp_matplotlib/core/viewport.py"]}
{"id": "C52", "title": "Camera zoom stays within its limits", "statement": "After any sequence of scroll events the zoom factor lies within its limits and the view's aspect ratio is unchanged.", "quantifier": "all scroll histories", "why_tests_cant": "unbounded histories", "anchors": ["examples/common/camera.py: on_scroll"]}
{"id": "C53", "title": "Asset cache never returns a partial file", "statement": "If downloading is interrupted at any moment, a later request for the same asset returns the complete contents.", "quantifier": "all crash points and retry histories", "why_tests_cant": "crash points", "anchors": ["examples/common/asset_downloader.py"]}
{"id": "C54", "title": "Expected-output comparison", "statement": "The JSON comparison used to validate outputs accepts a document compared with itself and is symmetric, and rejects documents differing in some compared value.", "quantifier": "all JSON documents", "why_tests_cant": "all nested documents", "anchors": ["scripts/check_expected_output.py"]}
{"id": "C55", "title": "Measures follow the viewport", "statement": "In a viewport, n pixels along x (y) are n/width (n/height) of the extent of the axis; a single number is scaled differently along x and y; the z component is unchanged.", "quantifier": "all viewports, axis limits and values", "why_tests_cant": "the scale is a product of viewport size, limits and unit; tests fix a handful of square viewports where x and y agree", "anchors": ["gsp/transform/measure.py: Measure.evaluate"]}
{"id": "C56", "title": "Rendering uses the last matrices given", "statement": "A visual is rendered with proj @ view @ model of the last matrices it was given, so a render without matrices (as on a resize event) uses the same transform as before; the viewport variable is the viewport rendered on and no other variable changes. A visual that was never given matrices is only declared on the viewport, not drawn (as the comment in render says).", "quantifier": "all histories of render calls with any subset of matrices given", "why_tests_cant": "the stored matrices depend on the whole history of calls and resize events", "anchors": ["gsp/visual/visual.py: render", "gsp_matplotlib/visual/points.py: render"]}
{"id": "C57", "title": "SVG paths: closing returns to the start of the subpath", "statement": "In a parsed SVG path every close code is at the position of the last moveto, the pen is already there when the path is closed, and each moveto is closed at most once.", "quantifier": "all path descriptions, all drawing commands between moveto and closepath", "why_tests_cant": "the start point and the pen depend on the whole sequence of commands", "anchors": ["gsp/core/svg.py: _parse_path"]}
{"id": "C58", "title": "The ready-made camera matrix is available", "statement": "glm.camera(xrotation, yrotation, zoom, mode) returns the product of a projection, a view and a model matrix for every rotation, zoom and mode.", "quantifier": "all rotations, zooms and both modes", "why_tests_cant": "all arguments", "anchors": ["gsp_matplotlib/glm/glm.py: camera, scale, translate"]}
{"id": "C59", "title": "Angles of the trackball", "statement": "A trackball created with two angles shows the view those angles describe. Assigning theta (or phi) shows the view with that theta (phi) and the other angle as the user last saw it; reading an angle afterwards gives back the value that was assigned.", "quantifier": "every pair of angles, every history of drags, assignments and reads", "why_tests_cant": "angles are real numbers and the outcome depends on the drags made before, so no finite list of cases covers it", "anchors": ["gsp_matplotlib/glm/trackball.py: Trackball.theta, Trackball.phi, Trackball._get_orientation, Trackball._set_orientation"]}
{"id": "C60", "title": "Faces of the ready-made shapes go round consistently", "statement": "Seen from outside, all faces of a ready-made shape go round in the same direction, and the shapes agree with each other, so that telling front faces from back faces works for all of them.", "quantifier": "every shape; for spheres every radius and resolution", "why_tests_cant": "resolution and radius are unbounded", "anchors": ["gsp_matplotlib/glm/shapes.py: cube, sphere, tetrahedron, octahedron, dodecahedron", "gsp_matplotlib/glm/glm.py: frontback"]}
{"id": "C61", "title": "Equal units in both directions", "statement": "In a viewport one unit of the scene is as many pixels long horizontally as vertically, whatever resizes and zooms have happened, so circles look round.", "quantifier": "all canvas sizes, viewport coordinates and histories of resize, connect and scroll events", "why_tests_cant": "unbounded event histories and all sizes", "anchors": ["gsp_matplotlib/core/viewport.py: __init__, _update", "examples/common/camera.py: connect, on_scroll"]}
{"id": "C62", "title": "A resize that changes no size changes nothing", "statement": "A resize event that reports the size the canvas already has leaves what the viewport shows unchanged.", "quantifier": "all histories of resize, connect and scroll events", "why_tests_cant": "unbounded event histories", "anchors": ["gsp_matplotlib/core/viewport.py: _update", "examples/common/camera.py: on_scroll"]}
{"id": "C63", "title": "The output check passes exactly when the outputs match", "statement": "The script that checks outputs succeeds exactly when every expected PNG or JSON file has an output file of the same name that matches it (images at least 0.99 similar, JSON documents alike), in whatever order the folder lists its files; a missing or different output makes it fail.", "quantifier": "all sets of expected and output files, all listing orders, any image similarity and JSON reader", "why_tests_cant": "all folders, contents and listing orders", "anchors": ["scripts/check_expected_output.py: verify_file_content, main"]}
{"id": "C64", "title": "Running all examples", "statement": "The script that runs the examples launches each example once, in the order of their names, with the arguments given after --; asked to stop it stops at the first failure with a non-zero status, and its exit status is zero only if every example succeeded.", "quantifier": "all sets of examples, exit statuses, arguments and environments", "why_tests_cant": "all sets of examples and outcomes", "anchors": ["scripts/run_all_examples.py: split_argv, run_example, main"]}
{"id": "C65", "title": "Functions connected to the camera", "statement": "When an event happens over the viewport the camera is connected to, each function connected to that event is called exactly once, in the order of connection, with that viewport and the current matrices, and the figure is drawn once; other functions are not called. Events of other figures, or after disconnecting, have no effect.", "quantifier": "every history of connections, mouse events, runs and disconnections; every function, viewport and figure", "why_tests_cant": "unbounded event histories", "anchors": ["examples/common/camera.py: Camera.connect, Camera.update, Camera.on_scroll, Camera.on_press, Camera.on_motion, Camera.on_release, Camera.disconnect"]}
{"id": "C66", "title": "Dragging turns the scene and nothing else", "statement": "Between a press over the viewport and the release the trackball receives every move of the pointer over the viewport, and the moves add up to the whole way; without a press nothing turns; view and projection never change.", "quantifier": "every history of connections and mouse events, pointers leaving and re-entering included", "why_tests_cant": "unbounded event histories", "anchors": ["examples/common/camera.py: Camera.on_press, Camera.on_motion, Camera.on_release"]}
{"id": "C67", "title": "Accessors and output variables select the named components", "statement": "X, Y, Z, W and R, G, B, A give, for every item, exactly the number at that place of the last axis, or the named field of a structured array; an index selects exactly the given rows; Out(\"name.letters\") gives the components of the letters in their order. A place, field, row or variable that does not exist is an error.", "quantifier": "every shape, contents, key, index and set of variables", "why_tests_cant": "unbounded shapes and contents", "anchors": ["gsp/transform/accessor.py: Accessor.evaluate", "gsp/transform/out.py: Out.evaluate"]}
{"id": "C68", "title": "Colours follow the scale", "statement": "The colour of a value is the colour map's at its place between the bounds given or, without bounds, between the smallest and the largest value; larger values never come before smaller ones, and the ends of the scale get the ends of the map. A given bound is used whatever the values are.", "quantifier": "every colour map, pair of bounds and array of values", "why_tests_cant": "unbounded arrays of values", "anchors": ["gsp/transform/colormap.py: Colormap.evaluate, Colormap.set_colormap"]}
{"id": "C69", "title": "A buffer holds the data it was given", "statement": "Reading a buffer gives exactly the items of its data, bytes, base64 text or live memory of an array alike, the same at every reading, and an array's later changes show; data that is not a whole number of items is refused. The length of a buffer or list is its number of items, and set_data replaces exactly the given bytes.", "quantifier": "every count, item size, contents, offset and history of readings", "why_tests_cant": "unbounded contents and histories", "anchors": ["gsp_matplotlib/core/buffer.py: Buffer.__init__, Buffer.set_data, Buffer.__array__", "gsp/core/buffer.py: Buffer.__len__", "gsp/core/list.py: List.__len__", "gsp_matplotlib/core/list.py: List.__array__"]}
{"id": "C70", "title": "Buffers of a session survive saving and sending", "statement": "Running the commands of a session, saved at the end or sent one by one, gives buffers with the contents the arrays have at the end.", "quantifier": "every history of tracked arrays and assignments", "why_tests_cant": "unbounded histories of updates", "anchors": ["gsp_matplotlib/__init__.py: Tracker, ndarray_to_Buffer, tracked_to_Buffer", "gsp_matplotlib/core/buffer.py: Buffer.set_data", "gsp/io/json.py: default"]}
{"id": "C71", "title": "The library's converters give what they are registered for", "statement": "A converter registered for a pair of types turns every value of the first into a value of the second with the same contents (colours in order, sequences element by element, arrays as buffers on their memory), or refuses values that cannot be converted; a session whose arguments need conversion can be saved.", "quantifier": "every converter registered by the library and every value", "why_tests_cant": "unbounded values; delayed conversions run only when saving", "anchors": ["gsp/__init__.py: str_to_memoryview, list_to_Color, tuple_to_Color, Color_to_list, Color_to_tuple, list_to_tuple, tuple_to_list, int_to_Object", "gsp_matplotlib/__init__.py: ndarray_to_Matrix, list_to_Buffer, list_to_List, int_to_Marker, ndarray_to_Buffer, tracked_to_Buffer", "gsp/core/data.py: NoneType_to_list"]}
{"id": "C72", "title": "A matrix holds the sixteen values given", "statement": "Matrix(data) holds the sixteen numbers of a tuple, list or array, and refuses any other number of values.", "quantifier": "every tuple, list and array", "why_tests_cant": "unbounded shapes, item sizes and memory layouts", "anchors": ["gsp/core/types.py: Matrix.__init__"]}
{"id": "C73", "title": "Elliptical arcs join their ends", "statement": "For an arc of an SVG path with non-zero radii between two different points, the center and angles computed put the start and the end on the ellipse at the two angles; radii large enough are kept and others are scaled up by the least factor that joins the ends; the sweep flag gives the direction, the large flag the longer of the two ways; and the path drawn starts at the start and ends at the end. Zero radii and equal ends are errors there, and the parser never asks for such an arc: it draws a line or nothing.", "quantifier": "every start, end, pair of radii, rotation and pair of flags", "why_tests_cant": "the parameters are continuous and the four flag combinations each choose a different branch of the trigonometry; a test samples a few arcs", "anchors": ["gsp/core/svg.py:endpoint_to_center", "gsp/core/svg.py:arc_path"]}
{"id": "C74", "title": "Each marker has the shape of its type", "statement": "Every marker type has a path, that of its own drawing, with a closed outline and its middle at the position of the marker; other numbers are refused. A set of markers gets one shape per position: the path of the type given for it (one for all, or one each), turned by the angle given for it.", "quantifier": "every marker type, every number of positions, every array or single value of types and angles", "why_tests_cant": "twelve drawings go through tokenizer, parser and normalisation, and the fallback from arrays to single values depends on every index; tests look at a picture", "anchors": ["gsp/core/types.py:Marker.path", "gsp_matplotlib/visual/markers.py:Markers.generate_markers"]}
{"id": "C75", "title": "A marker faces its axis", "statement": "Markers given an axis are oriented along it: different axes give different orientations.", "quantifier": "every axis, set of positions, types and angles", "why_tests_cant": "a picture with one axis looks right whatever the axis; the property relates all axes", "anchors": ["gsp_matplotlib/visual/markers.py:Markers.generate_markers", "gsp/visual/markers.py:Markers"]}
{"id": "C76", "title": "The name of a constructor gives the shape and type of its array", "statement": "bvec2 ... dvec4, bmat2 ... dmat4 and the scalars make an array whose last axes are those of one item, whose first axes are the count (an integer, a tuple, or none for a single item) and whose element type is that of the letter in the name and of the docstring; negative counts are refused.", "quantifier": "every constructor, every count: none, every integer, every tuple", "why_tests_cant": "39 constructors times all counts, including the squeezing of a single item; tests sample a few", "anchors": ["gsp_matplotlib/glm/vec234.py", "gsp_matplotlib/glm/mat234.py", "gsp_matplotlib/glm/ndarray/vectors.py", "gsp_matplotlib/glm/ndarray/matrices.py"]}
{"id": "C77", "title": "A visual is drawn once in each viewport it is rendered in", "statement": "However often a visual has been rendered in a viewport, with or without matrices, and however often the window has been resized, the viewport draws it exactly once; viewports it has not been rendered in do not draw it.", "quantifier": "every history of creating viewports and visuals, rendering, resizing and saving; every visual and viewport", "why_tests_cant": "drawing a thing twice gives the same picture unless it is translucent, and depends on the whole history of renders", "anchors": ["gsp_matplotlib/visual/points.py:Points.render", "gsp_matplotlib/visual/segments.py:Segments.render", "gsp/visual/visual.py:Visual.render"]}
{"id": "C78", "title": "Each viewport keeps its own picture", "statement": "A render shows, in its viewport, the product of the projection, view and model last given to the visual, and leaves other visuals and viewports alone. A resize changes the layout but not the matrices with which a visual is seen in any viewport.", "quantifier": "every history, every set of matrices, every visual and viewport", "why_tests_cant": "needs two viewports, different matrices and a resize, in every order", "anchors": ["gsp/visual/visual.py:Visual.render", "gsp_matplotlib/visual/points.py:Points.render"]}
{"id": "C79", "title": "A resize shows the new layout", "statement": "When the window is resized every viewport is laid out for the new size before the visuals in it are rendered again, and what is then drawn is the new layout.", "quantifier": "every history of creating viewports and visuals, rendering and resizing; every new size", "why_tests_cant": "depends on the order in which callbacks were connected over the whole history; tests have no window", "anchors": ["gsp_matplotlib/core/canvas.py:Canvas.__init__", "gsp_matplotlib/core/viewport.py:Viewport.__init__", "gsp_matplotlib/visual/points.py:Points.render"]}
{"id": "C80", "title": "Replaying the recorded renders gives the same picture", "statement": "The commands recorded while a program runs and its window is resized, executed on a new canvas, put the same visuals in the same viewports with the same matrices. Resizing the window records nothing.", "quantifier": "every history, every size of the new canvas", "why_tests_cant": "a statement about all histories, including events no test produces", "anchors": ["gsp/visual/visual.py:Visual.render", "gsp/io/command.py:command", "gsp_matplotlib/visual/points.py:Points.render"]}
{"id": "C81", "title": "A creation is recorded under its own class", "statement": "Creating an object records the name of its class, in the protocol and in the backend, so that after saving and loading an object of the same class is made from it.", "quantifier": "every class with a constructor of the protocol and of the backend, every argument, every state", "why_tests_cant": "tests create a few classes and never load what the backend recorded", "anchors": ["gsp/core/*", "gsp/visual/*", "gsp/transform/*", "gsp_matplotlib/visual/segments.py:Segments", "gsp/io/json.py:load"]}
{"id": "C82", "title": "The backend executes every creation the protocol records", "statement": "Each creation recorded with the protocol is executed by the matplotlib backend: the class of the same name receives every argument under the same name, and the only errors are those of the class itself.", "quantifier": "every class of the protocol, every argument, every state, every body of a constructor", "why_tests_cant": "an interface of thirty-five classes against any arguments", "anchors": ["gsp_matplotlib/__init__.py", "gsp_matplotlib/core/__init__.py", "gsp_matplotlib/visual/__init__.py", "gsp/io/command.py:Command.execute"]}
{"id": "C83", "title": "Every command can be read as text", "statement": "The text of a command, as a terminal shows it, gives its number, its method, its time and one line per parameter, in order, with the value and the type; objects by their id. The coloured and the plain format say the same, a queue is the texts of its commands, and every command has a text.", "quantifier": "every command, every set of annotations, every printed form of values", "why_tests_cant": "text for any parameters; no test dumps a loaded command or one with objects in both formats", "anchors": ["gsp/io/ansi.py:dump_command", "gsp/io/text.py:dump_command", "gsp/io/ansi.py:dump"]}
{"id": "C84", "title": "Lines are drawn with the caps, joins and styles given", "statement": "Segments, paths and outlines of polygons are drawn with the line caps, joins and styles last given; values for which there is no cap raise and change nothing.", "quantifier": "every history of changing attributes and rendering in viewports, every value", "why_tests_cant": "depends on which renderings came before a change; tests compare single images", "anchors": ["gsp_matplotlib/visual/segments.py:Segments.render", "gsp_matplotlib/visual/paths.py:Paths.render", "gsp_matplotlib/visual/polygons.py:Polygons.render", "gsp/core/types.py:LineCap"]}
{"id": "C85", "title": "Cropping and thinning a cloud keep points and colours together", "statement": "Cropping keeps exactly the points inside the bounds given, in order and each with its colour; a bound left out does not restrict. Thinning keeps as many points as wished, each at most once and with its colour.", "quantifier": "every cloud, every set of bounds, every number wished, every random choice", "why_tests_cant": "ranges over all clouds and random choices", "anchors": ["examples/lidar-point-cloud.py:point_cloud_crop", "examples/lidar-point-cloud.py:point_cloud_downsample"]}
{"id": "C86", "title": "The documentation shows the code of the block", "statement": "Leaving a documented block shows its source line by line without the indentation, nothing more and nothing less, and always ends.", "quantifier": "every file, every block and indentation, every line after the block", "why_tests_cant": "any source text; non-termination cannot be observed by a test", "anchors": ["gsp/io/mkdocs.py:mkdocs.__exit__"]}
{"id": "C87", "title": "An example run with the camera shows what the camera sees", "statement": "When an example is launched with the camera, after every move each visual is shown as the camera sees it, in the viewports given, and visuals stay in the viewports they were rendered in.", "quantifier": "every example (history), every list of viewports and visuals, every sequence of moves", "why_tests_cant": "interactive, over any sequence of moves", "anchors": ["examples/common/launcher.py:parse_args", "examples/common/launcher.py:_ExampleLauncher.render", "examples/common/camera.py:Camera.update"]}
{"id": "C88", "title": "A session saved to a file is redone by a backend", "statement": "When a program creates protocol objects and calls their methods, saves the recorded commands and the file is loaded and run by a backend, then saving succeeds without changing the program's queues and the backend does, in order, what the program did: it builds the same classes and calls the same methods, with each argument under its own name (objects as the objects standing for them, other values as their JSON form after conversion; values converted to an object made before, such as an array to its buffer, as the object standing for that one), and registers each object under the identifier it had in the program. The only errors are those raised by the backend's own classes, and everything before the error was done.", "quantifier": "all sequences of creations and calls with all arguments the file format can represent, all starting states of the program and of the loading process that are in step, all backends", "why_tests_cant": "The claim joins recording, identifiers, conversion, saving, loading and executing over sequences of any length; whether identifiers collide depends on the counters of two processes.", "anchors": ["gsp/io/command.py: command, Command, Command.execute, CommandQueue.run", "gsp/io/json.py: save, load", "gsp/__init__.py: save, load", "gsp/object.py: Object, OID"]}
{"id": "C89", "title": "Reading a Wavefront file gives its vertices and faces", "statement": "Reading a Wavefront file gives the vertices of its v lines fitted to the normalised cube and, for each f line, the vertex numbers of its corners counted from zero, in the order of the file; comments, blank lines and other records are ignored, and missing texture or normal numbers do not matter. Fitting or centring any non-empty set of vertices succeeds.", "quantifier": "all files (any number of lines), all readings of words as numbers", "why_tests_cant": "Files have any number of lines and any mix of records, and a test of one file cannot show that no file at all can be read.", "anchors": ["gsp_matplotlib/glm/glm.py: mesh, fit, center"]}
{"id": "C90", "title": "The raw image of a canvas has the size of the canvas", "statement": "Rendering a canvas without a target returns an array of height x width pixels of four bytes, whatever the width, height and resolution, and the size a canvas reports is the width and height it was given.", "quantifier": "all widths and heights (whole numbers below 2^52, or measures) and all whole resolutions", "why_tests_cant": "Whether width/dpi*dpi gives the width back depends on floating-point rounding for each pair; the sizes that fail are scattered and the common ones (512 at 100 dpi) pass.", "anchors": ["gsp_matplotlib/core/canvas.py: Canvas.__init__, Canvas.size, Canvas.render"]}
{"id": "C91", "title": "A program using the library's classes runs under the matplotlib backend", "statement": "When a program that uses any of the classes and constructors of gsp.core and gsp.visual is saved, loaded and run with the matplotlib backend, the backend has each class under the same name and accepts the arguments under the same names, so the playback either does everything the program did or stops at an error raised by the body of a backend constructor or method that received its arguments.", "quantifier": "all programs over the protocol's classes, all behaviours of the backend's bodies, all earlier histories of both processes", "why_tests_cant": "A program is any sequence of creations and calls over all the classes, and an incompatibility between the two packages shows only for the class and step concerned.", "anchors": ["gsp/core", "gsp/visual", "gsp_matplotlib/core", "gsp_matplotlib/visual", "gsp/io/command.py: CommandQueue.run"]}
{"id": "C92", "title": "Transforms that are saved and loaded are the same transforms", "statement": "When a program builds transforms (with constructors, operators, copies, chaining and binding), saves the recorded commands and they are loaded and run, running succeeds and each transform comes back under its identifier with the same class, attributes, operands, next transform and buffer, so that it evaluates to the same values.", "quantifier": "all sequences of operations on transforms, all arguments, all loading processes", "why_tests_cant": "Operators copy their operands and each copy records its own commands before the operator's; whether identifiers collide on loading depends on the depth and order of the expression and on the objects the loading process has already made.", "anchors": ["gsp/transform/transform.py: Transform.copy, Transform.__call__, set_next, set_base, set_buffer", "gsp/transform/operator.py: Operator.__init__, Operator.copy", "gsp/transform/colormap.py: Colormap.copy", "gsp/io/command.py: command, Command.execute"]}
{"id": "C93", "title": "Objects of a program's own classes survive saving and loading", "statement": "When a program defines classes on top of gsp.Object with recorded constructors and methods, possibly derived from one another, makes objects, calls their methods, saves the recorded commands and they are loaded and run, running succeeds and each object is found under its identifier with its own class and with the attributes the same calls give with the converted arguments; objects the loading process already had are untouched and nothing is recorded.", "quantifier": "all classes, all constructor and method bodies, all programs, all converters, all loading processes", "why_tests_cant": "The example scripts make one object of one class; whether a derived class can be rebuilt depends on the names of its parameters, on what its constructor hands over and on how the inherited decorator was named.", "anchors": ["gsp/object.py: Object.__init__, Object.id", "gsp/io/command.py: command, Command.execute, CommandQueue.run", "examples/io_saveload.py", "examples/io_inheritance.py"]}
{"id": "C94", "title": "Measures are accurate in floating point", "statement": "Computed in double precision, a measure is the exact one up to a relative error of a few units in the last place, in every unit, context and component; errors are reported alike; larger values never have smaller measures; pixels, and products that are floating-point numbers, are exact; 1 inch = 72 points = 2.54 cm = 25.4 mm exactly.", "quantifier": "all units, contexts, values and resolutions", "why_tests_cant": "the rounding error depends on every bit of the operands", "anchors": ["gsp/transform/measure.py: Measure.evaluate, Inch, Point, Centimeter, Millimeter, Meter, Kilometer"]}
{"id": "C95", "title": "JSON documents survive the trip through text", "statement": "What the library writes as JSON, in one line or indented, reads back as the same document: same strings, numbers, lists, dictionaries and order. Different documents have different texts. The text is printable ASCII. A document that holds something json cannot write raises TypeError and gives no text. A text that ends early is refused with ValueError, and reading never raises anything else.", "quantifier": "all documents of any size and depth, all strings of code points, both layouts, all places to cut", "why_tests_cant": "escapes, surrogate pairs, number syntax and nesting combine without bound; a truncation can fall inside any of them", "anchors": ["gsp/io/json.py: dump, load, default", "gsp/io/json.py: json.dump, json.dumps, json.load"]}
{"id": "C96", "title": "Saved session files are complete or refused", "statement": "A session saved to a file is read back as exactly the commands that were collected, other files are untouched, and if the program dies while writing, what is left of the file is refused by load instead of giving a shorter session. A save that fails leaves the previous file as it was.", "quantifier": "all queues, parameters, converters and files, all crash points while writing", "why_tests_cant": "the file is emptied before the values are written, so the outcome depends on which value of which command fails and on where writing stops", "anchors": ["gsp/io/json.py: dump, save, load, dump_command, default"]}
{"id": "C97", "title": "A new visual holds the arguments it was given", "statement": "Creating a visual, with the protocol or with the matplotlib backend, stores each argument, given by place or by name, as the variable of that name and nothing else; makes output arrays of one item per position (per group for paths and polygons); and accepts every kind of positions and indices its signature announces.", "quantifier": "all six visuals, both packages, all calls, all positions (buffers, arrays, transforms) and all groupings (sizes, arrays, lists, transforms)", "why_tests_cant": "any combination of argument kinds and call styles for each class; the tests create few visuals and none with transforms or lists", "anchors": ["gsp/visual/points.py: __init__", "gsp/visual/markers.py: __init__", "gsp/visual/pixels.py: __init__", "gsp/visual/segments.py: __init__", "gsp/visual/paths.py: __init__", "gsp/visual/polygons.py: __init__", "gsp_matplotlib/visual", "gsp/core/list.py: __len__"]}
{"id": "C98", "title": "Recording does not change what transforms are", "statement": "A program that makes, copies, chains, binds and sets transforms ends with the same transforms (classes, operands, chains, buffers, bases) or the same exception whether its commands are recorded or not; what is recorded never feeds back into the transforms.", "quantifier": "all programs of such steps, of any length, all starting states with the same transforms, all interpretations of the leaves", "why_tests_cant": "programs are unbounded and nest copies of copies; no test compares a recorded program with an unrecorded one", "anchors": ["gsp/transform/transform.py: copy, __call__, last, bound, base", "gsp/transform/operator.py: __init__, copy, bound", "gsp/io/command.py: command, write"]}
{"id": "C99", "title": "What printing shows", "statement": "Printing a transform shows its class, its id, the id of its base and what it is attached to (or its operands), never fails, keeps parentheses paired, and never shows two transforms the same way; printing a queue shows its name, state, number of commands and one line for each command in order, no two alike; a command reads the same before and after saving.", "quantifier": "all programs making and linking transforms, all trees of operators of any depth, all queues and histories of recorded commands", "why_tests_cant": "trees of operators and histories are unbounded, and the failing cases (numbers as buffers, operators inside operators, loaded commands) are not printed by any test", "anchors": ["gsp/transform/transform.py: __repr__", "gsp/transform/operator.py: __repr__", "gsp/io/command.py: CommandQueue.__str__, Command.__str__, Command.dump"]}
{"id": "C100", "title": "The pages of the documentation", "statement": "The page printed for an example, read as Markdown, contains exactly the code of the example and the dumps asked for, line by line and each in its own block; when a dump fails, the exception is raised and the parts before it stand.", "quantifier": "all blocks of code, indentations and surrounding files, all dumps and titles, all choices of formats", "why_tests_cant": "the text depends on every line of the source of the caller, including blank lines an editor leaves; no test reads the pages back", "anchors": ["gsp/io/mkdocs.py: __exit__, dump"]}
{"id": "C101", "title": "Loading files that are not sessions", "statement": "Loading a file whose text is not JSON, or that has no \"commands\", raises the documented exception and changes nothing. When an entry of \"commands\" cannot be made into a command, loading raises the exception for that entry, leaves the other queues alone and leaves the queue as it was. Only a list of commands is accepted; nothing else in the file matters.", "quantifier": "all texts, all JSON values in the place of the commands and of their methods and parameters, all histories of the session, all queues given or not", "why_tests_cant": "the file comes from outside: it can hold any text, and where loading stops depends on the first bad entry among any number of good ones", "anchors": ["gsp/io/json.py: load", "gsp/io/command.py: Command.__init__, CommandQueue.empty, CommandQueue.push"]}
{"id": "C102", "title": "Sessions saved by name are redone or refused, wherever saving was stopped", "statement": "A program saves its session under a file name ending in .json; the program may be stopped at any point while the file is written. A process that then loads the file by its name and runs it with a backend either redoes the whole session, object by object and call by call, or gets ValueError and does nothing. Names of other formats are refused and nothing is written.", "quantifier": "all programs and their arguments, all points at which writing stops, all file names and formats, all earlier contents of the disk, all histories of the loading process, all backends", "why_tests_cant": "the program can be stopped after any character of a file of any length, and what is redone depends on the whole program", "anchors": ["gsp/__init__.py: save, load", "gsp/io/json.py: save, load", "gsp/io/command.py: CommandQueue.run"]}
{"id": "C103", "title": "Exactly the JSON documents are read", "statement": "Loading takes a text exactly when it is a JSON document as the format defines it (with Python's NaN and Infinity), and what it finds is what the document says: blanks anywhere between tokens, every escape in strings, numbers without needless zeros, the last of several values under one key. Every other text raises ValueError. No text can be read in two ways, and whatever saving writes is such a document.", "quantifier": "all texts of any length and depth, all JSON values, both layouts of the writer", "why_tests_cant": "session files come from other programs: any text can be offered, and agreement with the format for all of them cannot be sampled", "anchors": ["gsp/io/json.py: load, save, dump"]}
{"id": "C104", "title": "Vertices appear where the camera and the viewport put them, nearer ones on top", "statement": "Drawing points draws each vertex exactly once, with its own colours, width and size, at the pixel found by moving it to the eye, projecting it, dividing by the distance, and measuring that many units from the middle of the viewport; after a resize a unit is the shorter side over twice the zoom, in both directions. A nearer vertex in front of the eye is drawn over a farther one, with a perspective or without. Two claims fail: vertices behind the eye are drawn as well, at the place of their mirror image, and pixels are drawn nearest first, so that farther ones cover nearer ones.", "quantifier": "all vertex arrays of any shape holding vertices, all matrices (covering: affine model and view, every perspective or orthographic projection), all attributes that fit, every viewport after any history of resizing and zooming, every sort that sorts numbers", "why_tests_cant": "where and in what order a vertex is drawn depends on the whole scene, three matrices and the history of the viewport", "anchors": ["gsp_matplotlib/visual/points.py: Points.render", "gsp_matplotlib/visual/pixels.py: Pixels.render", "gsp_matplotlib/core/viewport.py: Viewport", "gsp_matplotlib/glm/glm.py, gsp_matplotlib/glm/mat234.py, gsp_matplotlib/glm/vec234.py: to_vec3, to_vec4, perspective, ortho", "examples/common/camera.py: Camera"]}
{"id": "C105", "title": "Turning the camera keeps the scene in view", "statement": "However a camera was turned, a vertex whose distance from the origin, scaled by the camera, is at most the camera's distance times the sine of half its angle of view is shown inside the viewport, unless that was zoomed in; a vertex at the origin stays in the middle. No larger ball will do: of those some vertex is shown more than a unit above or below the middle, or nowhere. A flat camera shows each vertex where its first two coordinates say.", "quantifier": "all starting angles, all sequences of drags and direct settings of the angles, all distances and scales of the camera, all vertices, all viewports and canvas sizes", "why_tests_cant": "drags compose without bound and the claim is about every vertex and every turn of the camera", "anchors": ["examples/common/camera.py: Camera.__init__, Camera.update", "gsp_matplotlib/glm/trackball.py: Trackball", "gsp_matplotlib/core/viewport.py: Viewport"]}
{"id": "C106", "title": "Dragging turns the scene with the pointer", "statement": "Dragging a trackball from one place to another takes what of the ball was seen at the first place to the second, turning the whole scene after all earlier turns; a path of drags gone back step by step restores the view. A flat camera does not turn. Two claims fail for the camera's mouse events: what was under the pointer when the button was pressed does not stay under it (the camera passes the end of a movement as its start, so that what was under the end moves as far again), and moving the pointer away and back does not restore the view.", "quantifier": "all histories of drags and direct settings of the angles, all places within the ball (turning: all places), all paths; for the mouse all cameras and all histories of connections and events", "why_tests_cant": "paths of drags are unbounded and the claim is about every place; a test with one drag from the centre would not see that start and end are mixed up", "anchors": ["gsp_matplotlib/glm/trackball.py: Trackball.drag_to, Trackball._rotate", "examples/common/camera.py: Camera.on_press, Camera.on_motion"]}
{"id": "C107", "title": "Segments, paths, polygons and markers appear where their vertices are, nearer ones over farther ones", "statement": "Rendering segments, paths or polygons draws each exactly once, through the places where the matrices, the perspective division and the viewport put its own vertices, with its own colours and widths; markers the same, each of its own shape. Something all of whose vertices are nearer than all those of another thing is never drawn under it (with a perspective: in front of the eye). An odd number of vertices of segments is refused. One claim fails: where two segments cross, the nearer is not always drawn over the farther, because they are ordered by their mean depth.", "quantifier": "all positions in any shape, all matrices, all viewports, all ways to group vertices, all attributes that fit, every argsort that sorts", "why_tests_cant": "the order and the places depend on every coordinate of every vertex and on the matrices; an image compared for one scene says nothing about others", "anchors": ["gsp_matplotlib/visual/segments.py: Segments.render", "gsp_matplotlib/visual/paths.py: Paths.render", "gsp_matplotlib/visual/polygons.py: Polygons.render", "gsp_matplotlib/visual/markers.py: Markers.render"]}
{"id": "C108", "title": "Recorded methods may call recorded methods", "statement": "A program whose recorded methods call other recorded methods records every call that returns, in the order the calls end; replaying what was recorded leaves the objects as the program did. The second part fails: a call made within a recorded call is replayed on its own and again as part of it (once for every recorded call it was part of, itself included), and of a method that raised only the calls it made are replayed. It holds when inner calls ask not to be recorded (__no_command__), and when they make no difference if made beforehand.", "quantifier": "all classes and method bodies, including recursive ones and ones that catch exceptions, all programs, all states", "why_tests_cant": "depends on how bodies are nested to any depth and on every state they may meet; the tests of the repository only use methods that call nothing", "anchors": ["gsp/io/command.py: command, CommandQueue.run"]}
{"id": "C109", "title": "What is on the screen while an example runs with its camera", "statement": "While an example runs with its camera, the screen shows every visual as the camera, turned by the mouse so far, and the viewport, zoomed and resized so far, put it: points appear where the matrices and the viewport say, the nearer over the farther, and what is within the ball the angle of view holds stays in the viewport while the window keeps its size and is not zoomed in. Data the example's own onRender changes are as it makes them for the zoom and matrices now. What happens elsewhere changes nothing, and nothing the user does stops the example. It fails right after a change of size: the canvas draws the old picture stretched, before the viewport and the visuals follow, and shows that until a click or until matplotlib draws by itself.", "quantifier": "all lists of visuals, data, onRender functions, cameras, canvases, viewports, zooms and histories of mouse events (over the viewport, outside it or in other windows), changes of size and drawings", "why_tests_cant": "what is shown depends on the whole history of drags, zooms and sizes, and on the order in which callbacks of the canvas, the viewport and the camera run; the repository has no test of it", "anchors": ["examples/common/launcher.py: _ExampleLauncher.render", "examples/common/camera.py: Camera", "gsp_matplotlib/core/canvas.py: Canvas", "gsp_matplotlib/core/viewport.py: Viewport", "gsp_matplotlib/visual/points.py: Points.render", "gsp_matplotlib/visual/segments.py: Segments.render", "gsp_matplotlib/visual/paths.py: Paths.render", "gsp_matplotlib/visual/polygons.py: Polygons.render"]}
{"id": "C110", "title": "Points coloured by their depth", "statement": "Points whose colours are a colour map of their depth on the screen are always painted so that the nearest have the last colour, the farthest the first, and nearer points colours further along, whatever the camera: with a perspective a colour stands where the inverse of the distance is between those of the farthest and the nearest. With limits given the colour of a point depends on its own distance only. Colours of the first or second coordinate are spread evenly from the leftmost (or lowest) point on the screen to the other end. In a running example this holds of the screen after whatever the user did. It fails when all points are as far, which all get the first colour, for no points, which cannot be rendered, and for a limit of zero, which counts as left out.", "quantifier": "all colour maps, points in front of the eye, affine model and view matrices, perspectives and orthographic projections, attributes, viewports; all histories of a running example", "why_tests_cant": "colours depend on all points at once and on the camera, through a value the visual writes while it renders; the examples claim it for every view", "anchors": ["examples/points-colormap.py", "gsp/transform/colormap.py: Colormap.evaluate", "gsp/transform/out.py: Out.evaluate", "gsp_matplotlib/visual/points.py: Points.render", "gsp/visual/visual.py: Visual.eval_variable"]}
{"id": "C111", "title": "Points whose sizes follow the zoom", "statement": "In an example that divides the sizes of points by the square of the camera's zoom and their line widths by the zoom before it renders, every point on the screen has, at any time and whatever the user did, the size and width its own base size and the zoom now ask for, at the place the camera and the viewport give it. While the window keeps its size the picture grows and shrinks as a whole: places, diameters and line widths by the same factor. Nothing the user does stops the example. It fails after a change of size that leaves the viewport wider than high: the first turn of the wheel then moves the places by another factor than the points grow, unless the viewport was given in whole pixels and is not wider than high.", "quantifier": "all base sizes and widths, points, cameras, canvases, viewports, zooms larger than nothing and histories of mouse events, changes of size and drawings", "why_tests_cant": "the sizes are arrays the example overwrites in place while collections hold sorted copies; whether the two agree depends on the order of callbacks and on the whole history", "anchors": ["examples/points-3d.py: update", "examples/common/launcher.py: _ExampleLauncher.render", "examples/common/camera.py: Camera.on_scroll", "gsp_matplotlib/visual/points.py: Points.render", "gsp_matplotlib/core/viewport.py: Viewport._update"]}
{"id": "C112", "title": "Lengths in units on the screen", "statement": "Positions given as numbers times a unit (pixels, points, inches, centimeters, millimeters, kilometers) are drawn that many units from the middle of the viewport when the example runs with the orthographic camera, however the user zoomed, dragged and resized, once a click or matplotlib drew after a change of size; third coordinates are ignored. Such a visual can be rendered in every viewport larger than nothing. It fails for meters, drawn ten times as far, and with the default perspective camera, where at every moment one of the points one and two units to the right is drawn elsewhere.", "quantifier": "all positions, units, canvases, viewports, zooms and histories of mouse events, changes of size and drawings; for the perspective camera all angles and histories", "why_tests_cant": "the length is turned into a part of the scene with the limits the viewport has when the visual renders, and drawn with those it has later; whether they are the same depends on the order of callbacks and on the whole history", "anchors": ["examples/segments-fixed-size.py: S2", "gsp/transform/measure.py: Measure.evaluate", "gsp_matplotlib/core/viewport.py: Viewport.xlim, Viewport.ylim, Viewport.size", "gsp_matplotlib/visual/segments.py: Segments.render", "examples/common/camera.py: Camera.on_scroll"]}
{"id": "C113", "title": "Turning the scene for ever does not distort it", "statement": "With the rounding of binary64 arithmetic, mathematical functions as accurate as C libraries give, and the float32 matrix the code hands out, no history of drags of the pointer, of assignments of angles and of readings of angles makes the trackball raise while turning, and after each history the matrix is within a ten millionth of a rotation: every point stays as far from the centre as it was up to three millionths, and the centre stays where it is. After n drags of at most nine tenths of the ball's diameter and assignments of angles, every entry of the matrix is within 10^-7 + 2 10^-10 (n + 1) of the matrix exact arithmetic gives.", "quantifier": "all initial angles, all histories of drags with the pointer within a hundred units of the centre and of readings and assignments of angles, of any length, all mathematical libraries of the stated accuracy, all points", "why_tests_cant": "errors of single drags are far below what a test notices and only add up over long histories; whether they do depends on the renormalisation once in 98 drags, and tiny drags divide by lengths that rounding may make nothing", "anchors": ["gsp_matplotlib/glm/trackball.py: Trackball.drag_to, Trackball._rotate, Trackball._set_orientation, _q_normalize, _q_rotmatrix, _v_normalize, Trackball._project"]}
{"id": "C114", "title": "Several viewports share a canvas without disturbing each other", "statement": "On a canvas with several viewports, after any program and any resizes, connections and turns of the wheel, a point of the canvas shows the viewport made last of those whose requested rectangle covers it. Viewports requested as the cells of a grid, with edges given as shares, pixels or lengths, cover the canvas without gap or overlap at every size at which their edges go from one side to the other. Turning the wheel at a point zooms exactly the cameras connected to the viewport seen there; every other viewport and camera stays as it was, and no viewport moves but by a resize.", "quantifier": "all canvases, all programs creating viewports in any order, all histories of resizes, connections, disconnections and turns of the wheel of any length, all grids of any number of columns and rows, all points", "why_tests_cant": "a test tries a few layouts at a few window sizes; that no window size, layout or order of events leaves a gap, an overlap or a wheel turning the wrong view is a statement about all of them", "anchors": ["gsp_matplotlib/core/viewport.py:Viewport.__init__", "gsp_matplotlib/core/viewport.py:Viewport._update", "examples/viewport-multiple.py", "examples/viewport-with-margins.py", "examples/common/camera.py:Camera.on_scroll", "examples/common/camera.py:Camera.connect"]}
{"id": "C115", "title": "A saved session shows the same canvases and viewports elsewhere", "statement": "A program that makes canvases and viewports (giving each viewport its canvas itself) and is saved to a session file, loaded and run by a backend in another process, gives there the canvases the program itself would show: as many, in the same order and of the same size, and at each point of each of them the colour of the last viewport the program asked to cover it. If a class of the backend raises, the canvases are those of the steps before it.", "quantifier": "all programs of any length making any objects and calling any methods, all sizes, places and colours that can be sent, all file names, all states of the loading process that is not out of step, all backends, all points", "why_tests_cant": "a test compares one picture of one program; that recording, conversion, the text of the file, renumbering of the objects and the placing of viewports together never change a picture is a statement about all programs and all states of both processes", "anchors": ["gsp/io/command.py:command", "gsp/io/command.py:Command.execute", "gsp/__init__.py:save", "gsp/__init__.py:load", "gsp/io/json.py:save", "gsp/io/json.py:load", "gsp_matplotlib/core/canvas.py:Canvas.__init__", "gsp_matplotlib/core/viewport.py:Viewport.__init__"]}
{"id": "C116", "title": "A saved session draws the same points elsewhere", "statement": "A program that makes canvases, viewports, buffers and points and renders the points, saved to a session file and loaded and run by a backend in another process, gives there the same canvases with the same points drawn in them: each point once in each viewport it was rendered in, the farthest first, at the same pixel and with its own colours, width and size; and the same error if the program raises one. Colours and widths given for each point, and positions that are part of a larger array, should be drawn the same as well (they are not).", "quantifier": "all programs of any length, all positions, attributes and buffers that can be sent, all file names, all states of the loading process that is not out of step, all backends", "why_tests_cant": "a test compares one picture of one program; that recording, conversion of arrays to buffers, base64, the text of the file and renumbering of objects never change what is drawn is a statement about all programs, arrays and states of both processes", "anchors": ["gsp/io/command.py:command", "gsp/io/command.py:Command.execute", "gsp/io/json.py:save", "gsp/io/json.py:load", "gsp_matplotlib/core/buffer.py:Buffer", "gsp/visual/points.py:Points.__init__", "gsp_matplotlib/visual/points.py:Points.render", "gsp/visual/visual.py:Visual.eval_variable"]}
{"id": "C117", "title": "A saved session draws the same visuals elsewhere", "statement": "A program that makes canvases, viewports, buffers and visuals (points, pixels, markers, paths, polygons) and renders the visuals, saved to a session file and loaded and run by a backend in another process, gives there the same canvases with the same visuals drawn in them, and the same error if the program raises one. Rendering a visual replaces what it drew in that viewport before and nothing else. Paths, polygons and markers are drawn each once, the farthest first, at the pixels of their vertices and with their own attributes. This should hold for pixels and for markers with an axis too (it does not: a buffer is refused where the array was drawn), and paths and polygons should draw nothing when there is no path (they raise).", "quantifier": "all programs of any length, all kinds of visuals but segments, all positions, indices, attributes and buffers that can be sent, all file names, all states of the loading process that is not out of step, all backends", "why_tests_cant": "a test compares one picture of one program; that recording, conversion of arrays to buffers, the text of the file and renumbering of objects never change what any visual draws is a statement about all programs, arrays and states of both processes", "anchors": ["gsp/io/command.py:command", "gsp/io/command.py:Command.execute", "gsp/io/json.py:save", "gsp/io/json.py:load", "gsp_matplotlib/core/buffer.py:Buffer", "gsp/visual/visual.py:Visual.eval_variable", "gsp_matplotlib/visual/pixels.py:Pixels.render", "gsp_matplotlib/visual/markers.py:Markers.generate_markers", "gsp_matplotlib/visual/paths.py:Paths.render", "gsp_matplotlib/visual/polygons.py:Polygons.render"]}
{"id": "C118", "title": "The example scenes are what their descriptions say", "statement": "The scenes of the example programs, for any number of parts: the grid of polygons holds n rows of n regular polygons with 3, 4, 5... corners, each vertex written once by the loops, each polygon centred in its own cell, all corners at the same distance from its middle, no two polygons sharing a corner, and each is drawn once inside the viewport with the colours and width of the program; the spiral has n positions whose distance from the origin grows evenly from 0.05 to 0.95; the positions of the sphere are at distance 1 with evenly decreasing heights; the segments and the curve stay in the square and the curve's parts join each position to the next; the wireframe cube has the eight corners and exactly its twelve edges.", "quantifier": "all numbers of rows, points, segments and parts; for what is drawn, all viewports and all orders the sort of equal depths may give", "why_tests_cant": "the programs run with one size each and are compared as pictures by eye; that the loop index, the sizes and the vertex count agree (no vertex overwritten, left at the origin or written past the end) and that nothing leaves the square for any size is a statement about all sizes", "anchors": ["examples/polygons-2d.py", "examples/paths-regular-2d.py", "examples/points-2d.py", "examples/markers-2d.py", "examples/markers-3d.py", "examples/segments-2d.py", "examples/paths-2d.py", "examples/paths-3d.py"]}
{"id": "C119", "title": "Functions connected to the camera that use the camera", "statement": "A function connected to the camera may itself connect functions, disconnect the camera, save, or fail. An event then calls the functions of that event each once, in the order of connection, those connected meanwhile included, with the matrices as they are after the event, and draws the figure of the viewport connected last. If a function fails, the functions after it are not called and nothing is drawn, while the turn of the trackball stays. Functions that connect nothing leave the viewport and the drag alone. Every history ends, unless functions of motion run or save the camera or functions connect new functions without end.", "quantifier": "every history of operations; all functions, which may act differently at each call; every event", "why_tests_cant": "functions may do anything at each call, the list grows while it is gone through, and whether it ends is not visible in a run", "anchors": ["examples/common/camera.py: Camera.update, Camera.connect, Camera.disconnect, Camera.run, Camera.save, Camera.on_scroll, Camera.on_press, Camera.on_motion, Camera.on_release"]}
{"id": "C120", "title": "The point cloud example shows points of the file with their own colours", "statement": "Loading a point cloud, cropping it, thinning it and drawing it with Pixels shows points of the file that are inside the bounds, each once, where the camera puts it and with its own colour, divided by 255: all such points, or as many as wished if there are more. A file without positions or colours is refused.", "quantifier": "every file, every bounds and number of points wished, every random choice without repetition, every camera and viewport, every order the sort gives to equal depths", "why_tests_cant": "three index lists (mask, random choice, depth order) are applied one after the other to positions and colours; that they stay together for all files and choices cannot be sampled", "anchors": ["examples/lidar-point-cloud.py: load_npz_point_cloud, point_cloud_crop, point_cloud_downsample", "gsp_matplotlib/visual/pixels.py: Pixels.render"]}
{"id": "C121", "title": "Rounding moves no vertex by a visible amount and reverses no visible order", "statement": "With matrices and vertices in single precision, and whatever order and rounding numpy uses for its products, every vertex of a scene within the cube is drawn within a hundredth of a pixel of where the exact camera, turned by an exact rotation, would draw it, in viewports of up to 2000 pixels. A vertex farther from the eye by a thousandth gets the larger depth and is sorted behind. The division never meets a zero.", "quantifier": "every history of turning the view, every scale between a thousandth and a thousand, every vertex in the scaled cube, every order of the additions with or without fused products, single or double precision at each step, every viewport", "why_tests_cant": "rounding errors depend on all the bits of all the numbers and on the linear algebra library of the machine; no sample of pictures bounds them", "anchors": ["gsp/visual/visual.py: Visual.render", "gsp_matplotlib/visual/points.py: Points.render", "gsp_matplotlib/glm/vec234.py: to_vec3", "examples/common/camera.py: Camera.__init__"]}
{"id": "C122", "title": "Whole pictures survive rounding", "statement": "With everything in single precision, a visual of points in view of the default camera draws every vertex exactly once, with its own attributes, within a hundredth of a pixel of its exact place, and never lets a vertex cover another that is nearer by a thousandth. Such a picture is always drawn: no vertex divides by zero.", "quantifier": "every history of turning the view, every list of vertices in the cube, every colours and sizes, every sorting that orders the computed depths, every order of additions with or without fused products for each vertex, every viewport of up to 2000 pixels", "why_tests_cant": "the order of drawing depends on rounded depths of all vertices at once, and rounding depends on the machine; no sample of pictures covers that", "anchors": ["gsp_matplotlib/visual/points.py: Points.render", "gsp_matplotlib/visual/pixels.py: Pixels.render", "gsp/visual/visual.py: Visual.render"]}
{"id": "C123", "title": "Segments, paths, polygons and markers survive rounding", "statement": "With everything in single precision, visuals of segments, paths, polygons and markers in view of the default camera draw every item exactly once, with its own attributes and shape, each corner within a hundredth of a pixel of its exact place, and never let an item cover another that is wholly nearer by a thousandth and a hundred thousandth per vertex. Such a picture is always drawn.", "quantifier": "every history of turning the view, every list of vertices in the cube and every way of grouping them, items of any number of vertices, every attributes, every sorting that orders the computed mean depths, every order of additions in transforms and means, every viewport of up to 2000 pixels", "why_tests_cant": "the mean depth of an item is a rounded sum whose order of additions belongs to the machine and whose length is unbounded; the order of drawing depends on all of them at once", "anchors": ["gsp_matplotlib/visual/segments.py: Segments.render", "gsp_matplotlib/visual/paths.py: Paths.render", "gsp_matplotlib/visual/polygons.py: Polygons.render", "gsp_matplotlib/visual/markers.py: Markers.render", "gsp/visual/visual.py: Visual.render"]}
{"id": "C124", "title": "Nothing overflows on the way to the picture", "statement": "Computing where a vertex in view of the default camera goes, and what it is sorted by, never overflows single precision and never divides by zero; so every vertex of every picture has finite coordinates and a finite depth. With any matrices and vertices of numbers up to a million the homogeneous coordinates are finite; without a bound a large enough scaling loses every vertex.", "quantifier": "every history of turning the view, every vertex in the cube, every order of additions with or without fused products, items of up to eight million vertices; any matrices with entries up to a million", "why_tests_cant": "an overflow or a zero divisor can hide at a single vertex of a single history, and depends on the order in which the machine adds", "anchors": ["gsp/visual/visual.py: Visual.render", "gsp_matplotlib/visual/points.py: Points.render", "gsp_matplotlib/visual/segments.py: Segments.render", "gsp_matplotlib/glm/vec234.py: to_vec3"]}
{"id": "C125", "title": "The matrices of the camera as computed are as good as single precision allows", "statement": "Every entry of a perspective or orthographic matrix, of a scaling and of a translation, computed in double precision and stored in single precision, is the exact one up to one part in 2^23; rotations about the axes differ from the exact ones by at most 0.00000011; the product that makes the view of the camera adds no rounding at all. So with the matrices that the camera really computes, after any history, every vertex is placed within a hundred thousandth of the view, and within a hundredth of a pixel, of where the exact camera places it. With a near distance of 2^-160 the entry that tells depths apart is lost.", "quantifier": "every opening from 1 to 110 degrees, aspect from 1/1000 to 1000, near and far distance between a millionth and a million, limits of views, scale, distance and angle up to a million degrees; every library whose sine, cosine and tangent are within two units in the last place; every order of additions in the products; every history of turning the view", "why_tests_cant": "the bounds are about all real parameters and all libraries, and a test has no exact value to compare with", "anchors": ["gsp_matplotlib/glm/glm.py: frustum", "gsp_matplotlib/glm/glm.py: perspective", "gsp_matplotlib/glm/glm.py: ortho", "gsp_matplotlib/glm/glm.py: translate", "gsp_matplotlib/glm/glm.py: scale", "gsp_matplotlib/glm/glm.py: xrotate", "examples/common/camera.py: Camera.__init__"]}
{"id": "C126", "title": "The flat camera places vertices exactly", "statement": "When the mode of the camera is ortho, the matrices it computes in floating point place the first two coordinates of every vertex of single precision without any rounding: it is drawn on the very pixel where exact arithmetic draws it. The depth is within a millionth, and so is any vertex of other precision. Of two vertices the one that is farther by a ten thousandth is drawn first by points. So a picture of points or of pixels has every vertex exactly at its place, with its own attributes.", "quantifier": "every vertex of single precision (places), every vertex in the cube from -1 to 1 (depths), every order of additions with or without fused products, every argsort, any number of vertices and attributes, every viewport", "why_tests_cant": "that no rounding happens must hold for all numbers of single precision and all orders in which a machine may add", "anchors": ["examples/common/camera.py: Camera.__init__", "gsp_matplotlib/glm/glm.py: ortho", "gsp/visual/visual.py: Visual.render", "gsp_matplotlib/visual/points.py: Points.render", "gsp_matplotlib/visual/pixels.py: Pixels.render"]}
{"id": "C127", "title": "The flat camera places segments, paths, polygons and markers exactly", "statement": "When the mode of the camera is ortho, a picture of segments, of paths, of polygons or of markers computed in floating point has every item once, with its own attributes, and every corner exactly where its first two coordinates say. An item is not covered by one that is wholly farther from the viewer by a little more than a thousandth. Such pictures are drawn wherever the vertices are.", "quantifier": "every list of vertices of single precision in the cube from -1 to 1, any number of items with any number of corners, every order of additions with or without fused products, every argsort, all attributes, every viewport", "why_tests_cant": "the corners must be exact and the order right for all numbers of single precision, any number of corners and all orders in which a machine may add their depths", "anchors": ["examples/common/camera.py: Camera.__init__", "gsp_matplotlib/glm/glm.py: ortho", "gsp_matplotlib/visual/segments.py: Segments.render", "gsp_matplotlib/visual/paths.py: Paths.render", "gsp_matplotlib/visual/polygons.py: Polygons.render", "gsp_matplotlib/visual/markers.py: Markers.render"]}
{"id": "C128", "title": "Zooming survives rounding", "statement": "With the arithmetic of floating point, the zoom of the camera stays between its limits, each turn of the wheel changes it in the right direction by a tenth unless it reaches the limit, and forty turns up or forty-five turns down reach the limit exactly. After up to 2^50 events the zoom differs from the exact one by at most 2^-52 of it for each event. The limits of the axes keep the proportions of the viewport, but for a relative error of 2^-51 each time they are set, which a resize of the viewport clears; without a resize the two limits stay exactly equal. The proportions are not kept exactly: one turn of the wheel changes those of a viewport three times as wide as high.", "quantifier": "every initial zoom between the limits, every history of up to 2^50 connections, turns of the wheel in or out of the axes and resizes to sizes from a thousandth to a million of pixels (no bound on the history for the limits of the zoom and for equal limits)", "why_tests_cant": "each event reads the proportions from the limits the last one has rounded, so errors may add up over any history", "anchors": ["examples/common/camera.py: Camera.connect, Camera.on_scroll", "gsp_matplotlib/core/viewport.py: Viewport._update"]}
{"id": "C129", "title": "Sizes that follow the zoom survive rounding", "statement": "In the example whose points follow the zoom, after up to a million events every point has its own base size over the square of the zoom, and its base line width over the zoom, within 2^-23 of what exact arithmetic gives. A point that was made larger than another is never drawn smaller, and zooming in makes no point and no line smaller.", "quantifier": "every list of base sizes and base width between a thousandth and a million, every initial zoom between the limits, every history of up to a million events of the camera, every square function of the C library that is right to the last digit (and rising, for zooming in)", "why_tests_cant": "the zoom is the product of a whole history of rounded factors, and the bound must hold for all sizes", "anchors": ["examples/points-3d.py: update", "examples/common/camera.py: Camera.on_scroll"]}
{"id": "C130", "title": "Canvases and viewports have the sizes asked for, but for rounding", "statement": "A canvas made with a width tells that width within 2^-51 of it, though not always exactly. Both edges of a viewport with a positive extent given in pixels are within a hundred millionth of a pixel of the place asked for, viewports put side by side leave no gap or overlap above twice that, and a place given in pixels agrees with the quotient given as a fraction. A viewport as large as the canvas starts at its edge and ends within that distance of the other edge, sometimes beyond it. A width of zero is not no width but that of the canvas. A viewport given in fractions within the canvas stays within it, and the resolution does not move a viewport. When the window is resized a viewport given in pixels stays where it was asked for, one given in fractions keeps the same part, and one made with a width of zero keeps the width the canvas was made with.", "quantifier": "every width between 1 and a million pixels, every resolution between 1 and 10000 dpi, all integer coordinates up to a million, all sizes a window is given later", "why_tests_cant": "the inexact sizes are scattered among the pairs of width and resolution, and the bound must hold for all of them", "anchors": ["gsp_matplotlib/core/canvas.py: Canvas.__init__, Canvas.size", "gsp_matplotlib/core/viewport.py: Viewport.__init__, Viewport._update"]}
