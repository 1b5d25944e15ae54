# Design of the formal model of vispy/GSP

The code under study is the Python source in `/repo` (packages `gsp`,
`gsp_matplotlib`, the shared helpers in `examples/common` and `scripts`).  It is
read as text only.  The model lives in `rocq/theories/`:

* `Model/*.v`-style files (named after the module they model) hold definitions
  only.  Each definition cites the file and lines it mirrors, and says where it
  simplifies.
* `*Facts.v` files hold the proofs.
* `Prop_*.v` files hold nothing but the property theorems, each closed by
  `exact`, followed by `Print Assumptions`, with a non-vacuity `Example`.
* `Conformance.v` carries out the repository's own tests (`tests/`) on the model,
  as a check of the model against the code's expected behaviour.

Conventions: exceptions are values (`Err e`); Python dicts are insertion-ordered
association lists; a method that mutates `self` returns the new state.  Partial
Python operations (missing key, bad index, division by zero) return `Err`, never
a default value.  A theorem named `..._refuted` is a counterexample: the code
violates the property as the user would state it.  The accompanying positive
theorem then has the weakest guard under which the property holds.  A theorem
named `..._partial` proves only part of its property.

## Trusted base

* Coq 8.16.1's kernel (and `vm_compute`, which is part of it).
* What `Print Assumptions` lists.  Everything outside the real-number files is
  intended to be closed under the global context.  The real-number files (glm
  matrices and vectors, trackball, shapes, svg arcs, pictures, example scenes and point cloud, rounding errors) use the standard library's `Reals` and so rest
  on `ClassicalDedekindReals.sig_forall_dec`, `ClassicalDedekindReals.sig_not_dec`,
  `FunctionalExtensionality.functional_extensionality_dep` and, where excluded
  middle is used by a library lemma, `Classical_Prop.classic`.
* `Drift.v`, `Single.v`, `Optics.v`, `Flat.v`, `Zoom.v`, `Growth.v` and `Edges.v` use Flocq's definition of rounding and its proofs, which add no axiom.
* The reading of the Python source: nothing is executed here, so the tie
  between model and code is the citation on each definition.

## Not modelled

* matplotlib itself, numpy's C implementation, floating-point rounding (numbers
  are `Z`, `Q` or `R` as stated per file; `Precise.v` bounds the error of measures,
  `Drift.v` that of the trackball, `Single.v` that of the place of vertices, `Optics.v` that of the matrices of `glm`, `Zoom.v` and `Growth.v` those of the zoom and of sizes that follow it and `Edges.v` that of the place of viewports),
  how floats are printed and read as text (`JsonText.v` takes the text of a float
  as given), logging, timestamps (opaque), how a Markdown processor renders a page
  (`PageSpec.v` reads the blocks of code back by their indentation and fences only).

## Plan per property

| Id | Model | Proof |
|----|-------|-------|
| C01-C03 | `Registry.v`: counter, recording flag, registry, heap of ids, operations as a step function | invariant by induction over histories |
| C04 | same, replay = create + renumber + register | exact loss condition; counterexample for the unguarded claim |
| C05 | objects as class name + attribute dict | counterexample for hash; symmetry under equal key sets |
| C06-C08 | `Convert.v`: registry as dict keyed by name pairs | refinement to a history spec; counterexample for C07 |
| C09 | `Dtype.v`: characters, split/join, decimal printing and parsing | codec round trip by induction; counterexamples for names with separators and multi-dimensional shapes |
| C10-C12 | `Command.v`: signatures, argument binding, decorator, type check | equality with an independent binding spec; counterexample for C11 with defaults |
| C13-C18 | `Queue.v`: named queues, active queue, read-only, record flag, run | refinement to a log spec by induction over histories; counterexamples at exceptions and cross-recording |
| C19-C21, C23 | `Json.v`: payloads, method-path split and join, load into queues | round trip; counterexamples |
| C22 | `Base64.v`: RFC 4648 alphabet | round trip for all byte lists |
| C24-C26 | `Ragged.v`: data list + index pairs | partition lemma, frame lemma, slice counterexamples |
| C27-C28 | `Tracked.v`: base memory, strided views, extents | soundness of extents over histories; counterexamples |
| C29-C30 | `Swizzle.v`: rows of 2-4 components | all swizzle strings by induction |
| C31-C34 | `Transform.v`: heap of transform nodes, copy/call/evaluate with fuel | separation and evaluation lemmas; counterexamples |
| C35, C55 | `Measure.v` over the canonical rationals `Qc` | field identities; counterexamples for the metre, for single numbers and for z |
| C36-C37, C56 | `Visual.v`: input/output variable tables, arrays as a heap, stored matrices | frame lemmas by induction over histories; counterexamples for aliasing and shared names |
| C38-C40 | `Render.v`: any argsort meeting numpy's contract, attribute permutation, tracker flag, grouping | permutation and sortedness; exception paths enumerated |
| C41-C43, C57 | `Svg.v`: tokenizer on characters, parser over `Qc`; arcs are a parameter returning Bezier segments | tokenizer round trip, equality with an independent drawing semantics, invariants over the token list; counterexamples after closepath and for the extremes |
| C44-C46, C49, C58 | `Glm.v` over `R`, keeping the 1e-16 of `normalize` | algebra (`ring`/`field`/`nsatz`), trigonometric identities, entrywise distance to the ideal matrix; counterexamples by evaluation |
| C47, C59 | `Trackball.v` over `R` | unit-quaternion invariant over histories; assigned and read angles |
| C48 | `Vec.v` over `R`, integer and float kinds | row by row against the documented conventions; composition with a matrix |
| C50, C60 | `Shapes.v` over `R` | grid arithmetic, sine addition for the direction of triangles, tables by evaluation, arithmetic in the golden ratio |
| C51-C52, C61-C62 | `Viewport.v` over `Qc` (viewport, resize events and the camera's zoom) | arithmetic, invariants over histories of resize, connect and scroll events |
| C53 | `Download.v`: histories of calls, each of which may fail at a request or be cut after any number of bytes written | prefix invariant over histories; counterexample for every file and every cut before its end |
| C65-C66 | `Camera.v`: the camera's callbacks, registrations by figure and drags; trackball, matrices and functions are parameters | state after any history computed from the history; counterexamples for two viewports or figures |
| C54, C63-C64 | `JsonComp.v`, `Scripts.v`: the comparison of documents and the two scripts; image similarity, json.loads and the examples' exit statuses are parameters | uniqueness of sorting, structural induction over documents; induction over lists of files; counterexamples |
| C67-C68 | `Stage.v`: what one accessor, output variable or colour map does to an array of exact numbers; matplotlib's colour maps are a parameter | contents of the result given element by element; counterexamples for keys of several letters, nested indices and bounds of 0 |
| C69-C70 | `Buffer.v`: buffers over bytes, texts and array memory, lists, trackers, and sessions saved or sent as text | readings characterised for all data; replayed buffers compared with the live ones over all histories; counterexamples for set_data, lengths and late updates |
| C71-C72 | `Types.v`: the registered converters as functions on a small universe of values, and Matrix | case analysis over the fifteen converters; failing saves by induction over the queue (`Json.v`) |
| C73 | `Arc.v`: the center parameterization of an elliptical arc over exact reals; matplotlib's Path.arc is a parameter | in units of the radii the ends are two unit vectors with known dot and cross product; angles from sine and cosine |
| C74-C75 | `Marker.v`: the twelve drawings parsed by `Svg.v`, the dictionary, and generate_markers; styling, turning and aligning a path are parameters | the eleven drawings without arcs are computed, the circle is parsed for any arcs; induction over positions; counterexamples for open outlines, the arrow, arrays of one type, axes |
| C76 | `Create.v`: the 39 constructors as a table of class and type over one `make` (shape, type; contents are not modelled) | case analysis over names, general over counts; five docstrings refuted |
| C77-C80 | `Scene.v`: visuals, viewports, their collections, callbacks in order of connection and recorded commands; matrices and their product are parameters | one invariant over histories (each pair connected once, layout before rendering), simulation for the replay; counterexamples for scatter collections, two viewports, the drawing of a resize and its recording |
| C81-C82 | `Protocol.v`: the constructors of the protocol and the backend with the names they record and their parameters; bodies are a parameter; executed with `Execute.v` | the tables checked class by class, binding of named arguments by induction; counterexamples: segments recorded as points, no transform and no data in the backend |
| C83 | `Text.v`: ansi and text dumps over `Command.v`'s commands; str() is a parameter; escapes and lines in `TextSpec.v` | induction on the parameters, a lemma for escapes and one for lines; counterexamples for missing annotations, objects in plain text, empty queues |
| C84 | `Lines.v`: caps, joins and styles of a visual and of its collection per viewport, over histories | invariants over histories; counterexamples: caps fixed by the first rendering, segments always round, joins and styles unused |
| C85 | `Cloud.v`: cropping with optional bounds and thinning, coordinates rational, the random choice a parameter | induction on the cloud, extremes of a column; counterexample: a bound left out loses the farthest points |
| C86 | `Docs.v`: the loop reading back the source of a block, with fuel | induction on the block; counterexamples: an empty first line, a less indented line inside the block, no source (no fuel suffices) |
| C87 | `Launcher.v`: the camera's update function as renders of `Scene.v` | induction on the moves and visuals, over the theorems of C77 and C78; counterexamples: further viewports, visuals of other viewports |
| C88 | `Session.v`: a client's steps, saving, loading and running, from Registry, Command, Queue, Json and Execute | induction over the steps with the invariant that the n-th object built stands for the n-th object made and is registered under its identifier; counterexample when the loading process is behind. Missing: bodies that raise or record calls themselves |
| C89 | `Mesh.v`: `mesh` line by line, `fit` and `center`; words are read by parameters | induction over the lines against the records they stand for; the call itself is refuted for every file, the names used in `fit` and `center` being undefined |
| C90 | `Image.v`: the figure's size in inches, the pixels matplotlib makes of it (division and product rounded to 53 bits), the reshape of `render(None)` | the rounding is proved nearest among all floating-point numbers; resolutions that are a power of two or the sum of two are exact for every size (Kahan's theorem); elsewhere at most one pixel is lost; counterexamples at 100 dpi. Missing: resolutions that are not whole numbers |
| C91 | the two packages' constructors (`Protocol.v`) as the backend of a session (`Session.v`) | composition of C82 and C88: what is received binds to the backend's parameters of the same names; counterexample with a unit of length, which the backend does not have. Missing: transforms, Data, bodies as in C88 |
| C92 | `Journal.v`: constructors, copies, chaining and binding of transforms with the commands they record, and their execution with gsp itself as backend | induction over the steps with the invariant that each object stands rebuilt under its identifier, for operands set with `set_left`/`set_right`; counterexamples proved for all programs: operands given to a constructor are lost, an operator on a compound transform makes a file no new process can load, links to transforms and buffers are lost. Missing: type checks (C12), arrays instead of buffers |
| C93 | `Derived.v`: user classes with any constructor and method bodies, derived classes with constructors of their own, recording with type checks, saving, loading and running | simulation between the program, the program with converted arguments and the process playing back, by induction over the steps, for constructors that pass their parameters on under the same names; counterexamples: other parameter names (never runs again, all such classes), a changed hand-over (applied twice), an inherited dotted name (comes back as the base class). Missing: attributes and arguments that are protocol objects, bodies that call recorded methods |
| C94 | `Precise.v`: measures as in `Measure.v` with every operation rounded to nearest by `Image.fl` on `Qc`; no overflow or underflow | each rounding multiplies by a factor in [1-2^-53, 1+2^-53]; at most nine of them; rounding is nearest hence monotone; counterexamples for centimetres and millimetres |
| C95 | `JsonText.v`: json's encoder (both layouts, ASCII escapes, streaming) and decoder as functions on texts; floats are the texts of repr() | induction over documents with the text that follows as a parameter; cut texts by showing that what is read from a beginning is read from the whole; counterexample with two surrogates |
| C96 | `JsonFile.v`: the payload of a queue, the file it is written to and what load finds, on top of `Json.v` and `JsonText.v` | C95 and induction over the commands; counterexample: a failed save destroys the previous file |
| C97 | `Creation.v`: binding of arguments, the tables of input and output variables and the counting of positions and groups, for the classes of both packages | exact characterisation of proper calls by induction over the parameters; tables by cases; counterexamples: transforms as positions, lists of equal items as groups |
| C98 | `Journal.v` (transforms with recording) against `Transform.v` (without); `JournalPlainSpec.v` maps the objects of one to those of the other | refinement: simulation of copy by induction on fuel with the transforms under construction set aside, then steps and programs; independence of the recording switch by congruence |
| C99 | `Print.v`: repr of transforms and operators over the objects of `Journal.v`, str and dump of commands, str of queues over `Queue.v`; `PrintSpec.v` says how a transform reads | mutual induction on how a transform reads; injectivity of decimal numbers and of the cut at the first space; parentheses counted by induction on fuel; an invariant of programs for distinct ids |
| C100 | `Page.v`: the text mkdocs.dump prints, over `Docs.v`; `PageSpec.v` reads a page back into its blocks | the reader applied to the concatenation of the printed parts, by induction on lines; composed with the reading of the source (C86) |
| C101 | `AnyFile.v`: json.load step by step on the tree read from any text (`JsonText.v`), over the queues of `Queue.v`; `AnyFileSpec.v` classifies entries | the reader is total (a value or a ValueError) by induction on its fuel; the loop by induction on the entries before the first bad one; refuted by a file whose second entry has no id |
| C102 | `SessionFile.v`: gsp.save and gsp.load by name (pathlib's suffix), then run, over `Session.v`, `JsonFile.v`, `AnyFile.v` | C88, C96 and C101 composed; every strict beginning of a saved file is no JSON; path components by induction on the name |
| C103 | `JsonGrammarSpec.v`: the format as a grammar (inductive relations between values and texts), independent of the reader of `JsonText.v` | soundness by induction on the reader's steps, completeness by mutual induction on the grammar; dictionaries with repeated keys by uniqueness of the last value |
| C104 | `Picture.v`: rendering of points and pixels composed from `Vec.v`, `Glm.v`, `Render.v` and `Viewport.v`; `PictureSpec.v` says where a vertex belongs | the product of the matrices acts as eye then projection; sorting by the projected depth is sorting by distance because a perspective is monotone on either side of the eye; the limits of the axes give the units |
| C105 | `Picture.v` `camera_mats`, `flat_mats` over `Trackball.v` | the model matrix is a rotation after any history (C47, C59), so a vertex stays on its sphere; the cone of the angle of view contains exactly the ball of that radius (a quadratic inequality), and a vertex on the tangent shows that no larger one fits |
| C106 | `Drag.v`: the camera of `Camera.v` with the trackball of `Trackball.v`; `DragSpec.v` says what of the ball is seen where | the turn's half angle is the half chord over the radius, so it carries one place to the other (vector identities); a drag back is the conjugate quaternion, so paths cancel by induction; the refutations by preserved inner products |
| C107 | `Outline.v`: the pipeline of `Picture.v` with the grouping of `Render.v`; items are lists of corners | grouping commutes with projecting every vertex; the key is minus the mean, and a mean of smaller numbers is smaller, so what is wholly nearer comes later; the crossing pair by computing its two means for the flat camera |
| C108 | `Nested.v`: the decorator around arbitrary bodies (trees of state changes, reads and calls), and the replay; `NestedSpec.v` has the call trees of plain python as a relation | the interpreter with a bound on steps agrees with the relation both ways; what is pushed is the post-order of the tree; times by induction on trees with the depth as weight; the guarded versions by moving absorbed calls in front |
| C109 | `Live.v`: the launcher's update function with the example's own onRender and its data, the camera (`Camera.v`, `Drag.v`), the viewport (`Viewport.v`), visuals (`Picture.v`, `Outline.v`) and what was last drawn; `LiveSpec.v` says which histories leave the screen up to date | an invariant of single events (the camera is connected twice, collections hold what its matrices give, the screen is fresh or the size changed), then induction over histories; the data are what onRender made for the camera as it is; the parts follow their own models, so C104-C107, C51-C53 and C65 apply |
| C110 | `Depth.v`: the z column of the screen positions written while rendering, minimum and maximum, matplotlib's Normalize, and points with the resulting colours as a visual of `Live.v`; `DepthSpec.v` says what the distances and levels are | the depth after a perspective is affine in the inverse of the distance, so the levels follow from the extremes; the pictures are those of C104 with computed colours, and C109 carries them to running examples |
| C111 | `Sized.v`: the example's arrays and its onRender, as data of `Live.v`, with points that read them; `SizedSpec.v` says what a magnified picture is | from C109 the data are what onRender made for the zoom now; limits stay proportional to the zoom between changes of size, so places scale by the ratio of zooms; a computed history for the refutation |
| C112 | `Fixed.v`: a visual of `Live.v` that evaluates its positions with `Measure.v` in the viewport it is rendered in; `FixedSpec.v` says where lengths in units should appear | the scale of the measure is the inverse of the viewport's pixels per unit, and C109 says the viewport on the screen is the one rendered in; the orthographic camera keeps places, and the perspective formula of C104 contradicts two places on a line |
| C113 | `Drift.v`: the trackball of `Trackball.v` with every operation rounded to binary64 as Flocq defines it (no overflow), the matrix rounded to binary32, and a mathematical library known only by its accuracy | the quaternion's squared length is off by at most 60 (count + 1) units of 2^-50: the quaternion of a drag is accurate because its axis was normalized well or the drag is so small that its angle is nearly nothing; products add a bounded error; renormalising brings it back. Against the exact trackball: lengths of quaternions multiply, so errors add instead of growing; the axis is known well enough because a drag is at most 56 times as long as its axis |
| C114 | `Panes.v`: one canvas, its viewports in order of creation, the cameras and which of them the figure calls; creating, resizing, connecting, disconnecting, the wheel at a point | an invariant over histories ties each viewport to what it was made with; the rectangle requested is the one tested by the event; cells of a grid are bands of a rising list of edges; refuted for pixels once the window grows (gap) and for pixels beside shares once it shrinks (overlap) |
| C115 | `Remote.v`: what the constructors of gsp_matplotlib make of a program's calls and of the calls of a server, over `Panes.v`; the session and its file are those of `SessionFile.v` | C102 gives the calls of the server; numbers arrive as they were because no converter takes them to an annotated type; objects are matched by their order of creation, both sides having different ones; the two galleries agree step by step, and an induction over the program says what each canvas was asked for |
| C116 | `Relay.v`: buffers, points and `render` (identity matrices) as `gsp_matplotlib` makes them of a program's calls and of a server's, over `Panes.v`, `Picture.v` and `Remote.v` | the objects of both sides are matched by their order of creation; an array of the program and the buffer that stands for it have the same numbers, through base64; drawing depends on these numbers only, so both stages agree step by step. Colours in rows and parts of arrays are refuted with sessions that meet all other hypotheses |
| C117 | `Gallery.v`: all visuals but segments as `gsp_matplotlib` makes them of a program's calls and of a server's, with their variables evaluated, what they ask when made, and `render` for any drawing function; the drawing functions of points, pixels, markers, paths, polygons over `Picture.v` and `Outline.v` | as C116, for every drawing function that depends on the variables only, so that one proof serves all kinds; what is drawn is then proved for each kind. Pixels and markers with an axis are refuted with sessions that meet all other hypotheses |
| C118 | `Samples.v`: the arrays the example programs build (loops with their index, `linspace`, `repeat`, `reshape`), with the number of parts as a parameter | the loops keep the invariant written ++ zeros with the index at the boundary, so they write the concatenation of the polygons, which the sizes cut back (`Render.v`); trigonometry over the reals; what is drawn by C117. The cube by cases |
| C119 | Callbacks.v extends Camera.v: a function's body is a list of actions (connect, disconnect, run, raise) depending on everything seen so far; update goes through the live list with fuel, `None` standing for an endless loop or recursion. | Invariant of reached cameras (each function once, within the functions that may be connected, a viewport wherever something is connected); the lists only grow, so a place in the list keeps its function; induction on fuel; endless cases refuted for every fuel. |
| C120 | Terrain.v: the archive, the division by 255 and the whole program, from Cloud.v (C85) and the pixels of Picture.v (C104). | The three selections are lists of places that compose; the list shown is named by places of the file, for positions and colours at once. |
| C121 | Single.v: the products of float32 matrices as a relation that allows every order of additions and fused products, the division, the stored projection and view. | An error bound for any tree of rounded sums by induction, applied three times along a row; then the numbers of the camera, with C113 for the turned model and C104 for the canvas. |
| C122 | Rendered.v: points.py and pixels.py as relations over Single.v, one transform for all vertices, the sort of the computed keys, the attributes of Render.v. | The bounds of C121 vertex by vertex; a later item that were farther by a thousandth would have a smaller computed key, against the sort; attributes as in C104. |
| C123 | Joined.v: segments.py, paths.py, polygons.py and markers.py as relations over Single.v and Rendered.v, with the mean of depths as a rounded sum in any order and a rounded division. | An error bound linear in the number of terms for sums in any order; two items apart by the margin have exact mean depths apart by more than the errors of both, so the sort of the computed means orders them; grouping commutes with placing the vertices; attributes as in C107. |
| C124 | Overflow.v: the arithmetic of Single.v where results from 2^127 on may be infinite and quotients by zero are, and where such values spread. | Every partial sum is bounded by twice the sum of the absolute products, so it stays finite and the exceptional arithmetic agrees with Single.v; the divisor is positive by C121; a witness with two scalings by 2^70. |
| C125 | Optics.v: frustum, perspective, ortho, scale, translate, xrotate, yrotate and zrotate of glm with every operation rounded to double precision and every entry to single precision; sine, cosine and tangent are parameters known by their accuracy. | A calculus of relative errors in units of 2^-53; the tangent is Lipschitz on [0, 1] and above its argument; a sum of products of which at most one is not zero is exact in any order; then C121 without its assumption on the matrices. |
| C126 | Flat.v: the projection of Optics.v with the limits of the camera, the identity as view and model, places as in Single.v, pictures as in Rendered.v. | A sum of products of which at most one is not zero, and that one a number of single precision, is exact in any order (C125), so the transform is the projection and its first two rows are exact; depths by the error bound of C121; pictures as in C122. |
| C127 | Joined.v with the matrices of Flat.v. | Corners by C126; the depth of a vertex is within a millionth of a linear function of its third coordinate, and means keep the distance as in C123. |
| C128 | Zoom.v: zoom, limits of the axes and events over the rounded operations of Drift.v. | A calculus of numbers that differ by a number of roundings (a power of 1 - 2^-53), closed under composition, products, inverses, max and min; induction over histories; the counterexample by divisibility by three. |
| C129 | Growth.v: the two assignments of points-3d.py over rounded operations, the square of the C library as a parameter. | The calculus of roundings of C128 for the zoom, its square, its inverse and the product, then one rounding to single precision; order by monotony of rounding. |
| C130 | Edges.v: the size of a canvas and the place of a viewport over rounded operations, one direction. | The calculus of roundings of C128 for two, three and four roundings; the two refutations by computing the roundings of a canvas of 58 pixels at 100 dpi. |
