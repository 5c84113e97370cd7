# Machine-checked model of ToughIO

Source: `/repo` (keurfonluu/ToughIO, pinned).  Prover: Coq 8.16.1, `rocq/theories`.

## 1. Approach

* The model is executable Gallina that follows the Python functions branch by
  branch.  Exceptions are values (`res A := Ok a | Err e`); loops that may not
  terminate are modelled with fuel and an explicit out-of-fuel answer.
* Python values are a dynamic type `pyval` (None, bool, int, numpy int, float,
  str, list/tuple/array, dict); parameter dictionaries are association lists in
  insertion order.
* Floats are binary64 numbers `sign * m * 2^e` (plus infinities and NaN) with
  executable, exact formatting (`e`, `f`, `g`) and correctly rounded parsing.
* A text file is a string; readers see the list of its lines; `tell`/`seek` are
  positions in that list.  A file system is a finite map from names to contents,
  used for the properties about failed writes.
* Meshes: combinatorial parts over `nat`, coordinates over exact rationals
  (`Qc`), curves over Coq's reals.
* Properties are stated in separate files with their own small specifications;
  a false property gets a `..._refuted` theorem with a concrete witness and is
  listed as a finding below.

## 2. Plan per property

| Property | What is modelled | How it is proved |
|---|---|---|
| C01 | `str2format`, `to_str`, `write_record`, `read_record` | induction on the layout |
| C02, C03 | `{:>w.ke}` formatting, `float()`, binary64 rounding | exact integer arithmetic, nearest-value argument |
| C04 | same, field widths | width computed from sign and exponent; refutation by witness |
| C05-C20 | each `_write_*`/`_read_*` pair | induction on records, using C01 |
| C21 | title loop of `read_buffer` | fuel-indexed loop; non-termination for all fuel |
| C22 | `write_buffer`, `read_buffer` | composition of block lemmas |
| C23 | `write_buffer` | case analysis on selections |
| C24, C36 | file-system effects of `write` (both formats), `save2incon` | trace of effects |
| C25 | `check_parameters` and the `dtypes` table | induction on dictionaries |
| C26 | key stringification and restoration of `_json.py` | induction on values; the JSON text itself (library `json`) is not modelled |
| C27, C28 | `get_label_length`, `labeler` | positional numeral arguments |
| C29 | registration tables as association lists | induction on histories |
| C30 | `reorder_labels` | permutation argument |
| C31-C33 | CSV/PetraSim readers and writers, `get_output_type` | induction on rows |
| C34 | `_read_table` of the listing reader | path analysis (unassigned variable as error value) |
| C35 | `merge` | list reasoning |
| C37 | `export` index order against `structured_grid` order | witness; positive part for one layer |
| C38 | `split`, meshio layouts | list induction |
| C39 | `_connections` | counting argument on sorted faces |
| C40 | `structured_grid` | index arithmetic |
| C41, C42 | `extrude_to_3d`, `prune_duplicates` | list induction |
| C43 | `set_material`, `materials` | invariant on histories; refutation by witness |
| C44-C46 | MESH/INCON writers of meshes | list induction |
| C47-C50 | FLAC3D/AVS-UCD node orders, binary codec, groups | permutation computation, codec induction |
| C51 | `near`, `_box` | argmin, filter |
| C52, C53 | `voronoi1d`, `CylindricMesh` | recurrence invariants |
| C54 | `write_time_series` | sorting |
| C55 | `interpolate_data` | mean bounds |
| C56-C60 | relative permeability / capillarity classes over R | case analysis, monotonicity of powers |
| C61 | tetrahedra decompositions | ring identities |
| C62 | `read`, `write` of Tecplot outputs | induction on zones and rows, column widths |
| C63 | `read_buffer`, `write` of Tecplot meshes | finite check of the node orders, list induction |
| C64 | SAVE reader on top of the INCON round trip | list induction |
| C65 | `Mesh.read_output` on outputs already read | reordering theorem; invariant of the loop over connections, over R |
| C66 | `extract` on a disk | composition of the listing, mesh and CSV theorems |
| C67 | `face_areas`, `face_normals` over R | regrouping of triangles and quads by cell; vector algebra |
| C68 | the geometry in `write_conne` over R | line and plane, least distance; composition with the interfaces of C43 |
| C69 | `qualities` over R | least of the cosines; Cauchy-Schwarz with its equality case |
| C70 | `read_history` on the lines of the file | splitting of padded cells; transposition |
| C71 | the MESH writer of C44 followed by the input reader of C18-C23 | the lines are those of a dictionary of parameters, then the block theorems |
| C72 | the INCON writer of C46 followed by the input reader | the lines are those of a dictionary of parameters but for blanks at their end, which the reader ignores |
| C73 | `to_pyvista`, `from_pyvista` with the arrays of the grid (offsets of VTK 9 as the library computes them) | induction on blocks; finite tables of types |
| C74 | `to_meshio`, `from_meshio` for both layouts of meshio, the argument as the call leaves it | dictionaries as lists of pairs; C38 for the layouts |
| C75 | `toughio-export` with a mesh, from the lines of the output file to what is handed to the writers | sorting (C54), reordering (C65) |
| C76 | the methods of a mesh as steps of a state machine | an invariant of all histories, and ghost lists of origins composed step by step |
| C77 | nothing new: write, merge and read composed | the main loop of the reader run over the blocks of the input file, then of the mesh, then of the initial conditions |
| C78 | nothing new: save2incon, merge and the reader composed | the converted file is again a SAVE file with the same entries and another end; the reader run over it within the merged file |
| C79 | nothing new: write, read and write composed | each block: the columns printed from the values read are those printed first (a rounded number rounds to itself), the gates of the blocks are the same; then the file block after block, and induction on the number of rewritings |
| C80 | export of _cli/_export.py whole, triangulate, voxelize, add_point_data, add_cell_data, from the lines of the results to the mesh or steps handed to the writers | get_points gives the centres in space (the axes are unique); the columns along the axes; voxelize by C37 and C52; the steps by C54; refusals branch by branch |
| C81 | read_output of Model/Output.v on any lines | a relation says which rows a line shows, whatever its layout; each line is read by induction over steps and rows; shape and termination by induction over the lines of each format, with no assumption on the file |
| C82 | read_mesh of Model/TecMesh.v on any lines | a relation says which words a line shows, whatever its layout; pairs, ranges, rows and columns by list induction |
| C83 | read_mesh of Model/Avsucd.v on any lines | numbers kept as a dictionary of places; the arrays after any set of rows, by induction over the rows in any order |
| C84 | read of Model/F3grid.v on any lines or bytes | an invariant of the state of the reader in terms of the gridpoints, cells and groups read so far, kept by each line or record; then the arrays of groups by a permutation of the places of the members |
| C85 | write_text and read_text of C22 | each block is read on its own from any state met between blocks, so any list of blocks that keeps ELEME before COORD is read as the fold of their updates; per entry at most two blocks act, and these commute up to the order of insertion |
| C86 | read_text on any text | the two readings run side by side: a relation on the remaining lines is kept by each function of the reader, fields of records being stripped; only the two records with unstripped fields can fail when cut short |
| C87 | write_text, read_text | each block is read whatever follows, a word or a blank line included (PARAM and DIFFU read ahead); lines without a keyword change nothing; ENDCY stops the reader |
| C88 | write_text | two dictionaries with the same unique keys and related values; related dictionaries give the same lookups, checks, sorted keys, defaults and records, block by block |
| C89 | write_text | two dictionaries that agree on known names; such dictionaries give the same lookups, checks, defaults and records, block by block (C88 is a corollary) |
| C90 | write_text | a relation between values (equal once every sequence is a list and every integer one of python) and between dictionaries; lookups, lengths, slices, checks and formats respect it, block by block |
| C91 | write_text | a dictionary with default values spelled out (own table of defaults) gives the same merged dictionary and passes the same checks; parameters that differ so are written alike, block by block |
| C92 | write_text | filled rocks and default have the same entries, in another order, whether inherited values are repeated or not; the proof of C89 that order is not seen by the blocks is used for the rest |
| C93 | write_text | checks, label lengths and look-ups of a permuted table succeed alike; the other blocks do not read the tables |
| C94 | write_text | extending a complete order changes nothing; checks, filling and look-ups of permuted rocks succeed alike; whether INDOM is needed does not depend on the order when initial conditions are sequences |
| C95 | write_text | parameters that agree but for one key: every other block and every condition for a block is worked out alike, so the files share what stands before and after the block |

## 3. Trusted base

* Coq 8.16.1's kernel (and its VM, used by `vm_compute`).
* The reading of the Python source by hand.  Each definition cites the lines it
  follows; the simplifications made are stated in its comment and in section 4.
* Axioms.  `Print Assumptions` stands below every theorem.  All theorems are closed
  under the global context, but for these:
  - over Coq's reals, `ClassicalDedekindReals.sig_not_dec`,
    `ClassicalDedekindReals.sig_forall_dec`,
    `FunctionalExtensionality.functional_extensionality_dep` and
    `Classical_Prop.classic`: C56_rounded, C56_exact, C56_pickens, C56_mualem,
    C56_mualem_refuted, C56_verma, C56_domain, all of C57, all of C59,
    C60_call_refuted, all of C65, C67, C68, C69, C75 and C80 (without `classic`);
  - binary64 numbers of the kernel (`PrimFloat.float` and its operations):
    C56_rounding_refuted, C60_refuted.
* No axiom, parameter or section-less hypothesis of our own; nothing admitted.

## 4. What is modelled, and what is not

| Model file | Source |
|---|---|
| `Model/Py.v`, `Model/Numpy.v` | Python values, exceptions, `str.format`; the numpy functions used |
| `Model/Records.v` | `_common.py` (records), `_io/input/tough/_helpers.py` |
| `Model/Write.v`, `Model/Read.v` | `_io/input/tough/_write.py`, `_read.py`, `_common.py` |
| `Model/Json.v` | `_io/input/json/_json.py`, effects of the writers on files |
| `Model/Dispatch.v` | `_common.py` (registration), the `_helpers.py` of input, output and mesh |
| `Model/Output.v` | `_io/output`: CSV, PetraSim, Tecplot, TOUGH listing, `_common.py`, `_helpers.py` |
| `Model/Save.v` | `_io/output/save` |
| `Model/Cli.v`, `Model/Extract.v` | `_cli/_merge.py`, `_cli/_save2incon.py`, `_cli/_extract.py` |
| `Model/Labeler.v` | `labeler` of `_mesh/_common.py` |
| `Model/Grid.v` | `meshmaker` (structured, voxelised and cylindric grids); `export` of `_cli/_export.py` for the order of the data |
| `Model/Mesh.v`, `Model/MeshOps.v`, `Model/Geometry.v` | `_mesh/_mesh.py`, `_properties.py`, `_common.py`, `_filter` |
| `Model/Import.v` | `read_output` of `_mesh/_mesh.py` |
| `Model/Conne.v` | `face_areas`, `face_normals`, `qualities` of `_mesh/_properties.py`, the geometry of `write_conne` |
| `Model/History.v` | `read_history` of `_io/output/_helpers.py` |
| `Model/MeshRead.v` | `read` of `_mesh/tough/_tough.py` |
| `Model/Pyvista.v` | `to_pyvista`, `from_pyvista` of `_mesh/_mesh.py`, tables of `_mesh/_common.py` |
| `Model/Meshio.v` | `to_meshio`, `from_meshio` of `_mesh/_mesh.py`, `get_material_key` of `_mesh/_helpers.py` |
| `Model/Export.v` | `export` of `_cli/_export.py`, the branch with a mesh |
| `Model/Session.v` | `add_point_data`, `add_cell_data`, `set_material` on a mesh, `materials`; histories of calls |
| `Model/ExportPlain.v` | `_cli/_export.py` 17-200, 287-344, `meshmaker/_triangulate.py` 10-52, `_mesh/_mesh.py` 511-549 |
| `Model/MeshFile.v` | `_mesh/tough` (MESH and INCON) |
| `Model/TimeSeries.v` | `write_time_series` of `_mesh/_helpers.py` up to the XDMF writer |
| `Model/F3grid.v`, `Model/Avsucd.v`, `Model/TecMesh.v` | `_mesh/flac3d`, `_mesh/avsucd`, `_mesh/tecplot` |
| `Model/Curves.v` | `relative_permeability`, `capillarity` |

Not modelled:

* the libraries: meshio (other mesh formats, XDMF), pyvista, matplotlib, the text of
  JSON, pickle, zipfile; numpy only through the functions used, with arrays as lists
  (ragged arrays and negative indices answer `Err Unmodelled`);
* text that is not ASCII, carriage returns, errors of the operating system other than
  those of C24 and C36, warnings and printing;
* the argument parsers of the command line, the triangulation itself (scipy), plotting;
* floating-point rounding in geometry: centres, volumes, grids, selection and
  interpolation are over exact rationals; curves over exact reals and over any monotone
  rounding; all numbers in files are exact binary64;
* what numpy scalars or arrays do where Python numbers were assumed (curves with
  numpy inputs return nan instead of raising).

`Err Unmodelled` never makes a theorem true by default: theorems about results either
conclude from `... = Ok ...` or prove that the result is `Ok`.

## 5. Findings

Behaviour of the pinned source, each proved about the model by the theorem named.

Input files

* Negative numbers in 10.4e and 15.9e columns lose their last exponent digit, and the digit corrupts the next number (C04_refuted, C04_neighbour_refuted).
* A `rocks_order` tuple that misses a rock is an AttributeError (C05_tuple_refuted).
* What was read from a FLAC block cannot be written again (C07_refuted); so for SELEC without floats (C10_refuted).
* A solver without `method` is a KeyError; `start: False` is lost by a cycle (C08_refuted).
* Absent time steps change at each cycle, an option of two digits shifts the others, a ninth initial condition is dropped (C09_refuted).
* INDOM: a rock with more than four values after one with fewer, or named like a number, makes the file unreadable (C11_refuted).
* History labels are cut at five characters (C14_refuted).
* GENER: enthalpies given for some sources only, names starting with a digit, single times (C15_refuted).
* Diffusion tables given as arrays are a ValueError (C16_array_refuted).
* OUTPU without variables swallows the next block (C17_refuted).
* ELEME without material cannot be read; materials of digits become numbers (C18_refuted).
* CONNE: second labels starting with a digit; absent NADD becomes two Nones (C19_refuted).
* INCON: more than four variables after an element with fewer; labels of digits; a ninth variable (C20_refuted).
* A file without a block after its title is read for ever (C21_refuted), and the writer makes such files (C23_refuted).
* Initial conditions of a rock may be lost; `coordinates` without elements is unreadable (C22_refuted).
* A failed JSON write destroys the previous file (C24_refuted); JSON keys with the same text are merged and a name None comes back as the text null (C26_refuted).
* Rocks that are no dictionaries pass the checks and fail later (C25_refuted).

Labels, formats, outputs

* Label lengths are guessed wrongly from digits after the label (C27_refuted); labels shorter than four characters are not made (C28_short_refuted, C28_tiny_refuted); the length depends on the size of the mesh (C28_auto_stable_refuted).
* Registered extensions with capitals are never used (C29_refuted).
* `reorder_labels` accepts repeated labels and drops data (C30_refuted).
* CSV, PetraSim, Tecplot outputs: C31_refuted, C32_refuted, C33_refuted, C62_refuted.
* Listings cannot be read with an explicit label length (C34_refuted); elements named ELEM... are skipped (C34_rows_refuted).
* `toughio-merge` without end line or final newline (C35_no_end_refuted, C35_glued_refuted); `toughio-save2incon` empties its output before it refuses, and its input when converted in place (C36_refused_refuted, C36_in_place_refuted).
* SAVE files: a missing porosity, user values on some elements only (C64_refuted), an order given as an array (C64_array_refuted) are errors.
* A quoted name with a comma in a history file becomes two names (C70_comma_refuted).
* `toughio-extract`: --split ignores the format (C66_split_refuted), a label length makes it fail (C66_length_refuted), coordinates of the last time step serve for all (C66_order_refuted).

Meshes

* `toughio-export` of structured grids puts data in other cells (C37_layers_refuted, C37_columns_refuted).
* Extrusion drops other blocks but not their data (C41_extrude_refuted); duplicates remain across blocks (C42_blocks_refuted).
* The number of an unused material is reused (C43_reused_refuted); boolean list in a one-cell mesh (C43_one_cell_refuted).
* A mesh without interface cannot be written (C44_alone_refuted); short material names are not moved (C45_short_refuted); negative initial conditions are left out (C46_negative_refuted).
* FLAC3D: C47_coplanar_refuted, C47_wedge_refuted, C47_tiny_refuted, C49_order_refuted, C49_two_faces_refuted, C49_blank_refuted, C49_same_name_refuted.
* AVS-UCD (the order of the nodes in the file: C50_lines, C50_turned): C50_materials_refuted, C50_comma_refuted, C50_names_refuted, C50_digits_refuted.
* Box filter: C51_flat_refuted, C51_start_refuted.  Voronoi sizes: C52_sizes_refuted, C52_single_refuted.  Orphan points: C55_orphan_refuted.
* Importing results reorders the output given (C65_changed_refuted); outputs without labels are a TypeError (C65_unlabelled_refuted).
* The area of a face that is a warped quad depends on its first corner, so that the two sides differ (C67_sides_refuted).  One cell without neighbours makes `qualities` fail for the whole mesh (C69_alone_refuted).
* Material names longer than five characters are cut in MESH without notice: two materials may become one (C71_names_refuted).
* Two cells with two common faces: the reader keeps one of the two connections (C71_faces_refuted).
* A mesh with five or more primary variables, all after the fourth undefined in some cell: record 3 of that cell is blank, and reading the INCON file stops there, losing the cells that follow (C72_blank_refuted).
* More than eight primary variables: those after the eighth are not in the INCON file (C72_many_refuted).
* `from_pyvista` with VTK 9 reads the number of nodes of a cell at `vtk_cells[offset]` instead of `vtk_cells[offset + c]`: cells after the first get a wrong number of nodes (C73_vtk9_refuted).
* `to_pyvista` with VTK 8 and an empty block: IndexError, or wrong offsets after it (C73_empty_refuted).
* `from_pyvista` merges data whose names differ by blank and underscore (C73_blank_refuted) and loses the names of materials (C73_names_refuted).
* `from_meshio` renames the first array of materials over an existing array `material` (C74_two_materials_refuted).
* `from_meshio` of a mesh without material whose `field_data` has no entry of dimension 3: ValueError, the maximum of nothing (C74_names_refuted).
* `from_meshio` changes the mesh it is given (its `cell_data` and `field_data` are shared with the result): a second call gives the default material another number and removes the name of the first (C74_argument_refuted).
* `toughio-export` sets `mesh.cell_dada` instead of `mesh.cell_data`: the cell data of the mesh file stay in the exported file (C75_own_data_refuted).
* Extruding a mesh with segments or points among its cells leaves cell data which do not fit the cells, and `prune_duplicates` then fails (C76_extrude_refuted).
* `toughio-merge` takes the first line that starts with ENDCY or ENDFI in any case for the end: with the title `Endfield reservoir` the mesh is put before the title, which is lost on reading; with a rock named `ENDCY` the merged file cannot be read (C77_end_refuted).
* What read_input gives cannot always be written: FLAC (`creep` is read as an int, TypeError), SELEC without floats (KeyError), a generator with an empty type (TypeError) (C79_error_refuted).
* Reading and writing a file may change it: START and a title line appear, the number of components with mass of MULTI and a blank MOMOP go, DELTEN -1 becomes 0 without time steps (C79_blocks_refuted); centres are rounded twice in ELEME and the parameters of a model without id go (C79_values_refuted).
* toughio-export without a mesh: a section along X and Z (or Y and Z) is written with Z as second coordinate, so that it lies flat (C80_plane_refuted); in an XDMF file points and order of voxels are those of the first step, and a later step which lists its elements otherwise has its values at other elements (C80_order_refuted); two layers of voxels have each other's values (C80_layers_refuted).
* Files of results: a Tecplot file whose zone has more rows than announced is read without error, loses a row and gives the step twice (C81_tecplot_refuted); a blank line in a CSV file ends the reading and the steps after it are left out (C81_blank_refuted); a file with an equal sign in its first line and without VARIABLES is read for ever (C81_ends).
* Tecplot mesh files of other programs: a last pair written without blanks, as ET=TRIANGLE, is left out and the file is refused (C82_last_refuted); a quoted name of three words is cut in pieces which are joined to the next name, without error (C82_names_refuted).
* AVS-UCD files of other programs: data of the cells named material are lost, replaced by the materials of the lines of the cells (C83_material_refuted).
* FLAC3D grids of other programs: one zone in no group makes the whole file refused with ValueError (C84_ungrouped_refuted); a blank line silently ends the reading (C84_blank_refuted); a group of faces right after the table of a group of zones is read as part of this table (C84_table_refuted).
* Input files with blocks in another order: COORD before ELEME and INDOM before ROCKS end in KeyError; a block before ROCKS is read and its lines also become part of the title (C85_refuted).
* Input files whose lines lost the blanks at their ends (as editors leave them) are refused with TypeError when the first line of PARAM ends before the columns of the extra options (C86_refuted); this happens with files written by the package itself.
* A remark between blocks that begins with the name of a block opens the block: the reader looks at the first letters of every line only (C87_refuted: STARTING sets start, TIMES in seconds is refused with ValueError). A number on a line of its own after PARAM is taken for the fifth initial condition.
* Parameters that Python finds equal (==) can give different files: rocks and output variables are written in the order of their dictionaries (C88_refuted); rocks_order and the like fix the former, nothing fixes the latter.
* An unknown entry alone in output adds an OUTPU block without records, alone in selections or solver it raises KeyError, among the numbers of extra_options TypeError (C89_refuted): these dictionaries are tested for being empty, or sorted by key.
* diffusion as an array raises ValueError in MULTI (`if parameters["diffusion"]`), rocks_order as a tuple raises AttributeError when a rock is missing from it (append), a numpy integer as material raises ValueError (`isinstance(..., int)` fails and it is formatted as a string) (C90_refuted).
* Default values alone in more_options or output add a block, alone in solver they raise KeyError: solver has a default for id, which is not read, and none for method, which is (C91_refuted; _common.py:74-80).
* initial_condition, relative_permeability and capillarity of default are not inherited by rocks: repeated in a rock they add records (C92_refuted; _write.py:53-60).
* An element left out of elements_order is left out of the file without a warning, and the connections to it are written (C93_refuted; _write.py:832-835).
* When several elements are wrong, the order of the dictionary decides between AttributeError and TypeError (C93_refuted; _helpers.py:207-224).
* With an initial condition that is not a sequence in one rock, the order of the rocks decides whether block='mesh' is written or raises TypeError (C94_refuted; _write.py:90-95).
* A given diffusion changes MULTI as well as DIFFU: the fourth number of MULTI becomes 8 (C95_refuted; _write.py:349-351).
* Tecplot meshes: C63_negative_refuted, C63_first_block_refuted, C63_empty_block_refuted, C63_same_name_refuted, C63_blank_refuted, C63_equal_refuted, C63_short_refuted.

Curves

* Rounding leaves [0, 1] (C56_rounding_refuted); unchecked parameters (C56_mualem_refuted, C57_verma_refuted, C59_*_refuted); two models share identifier 7 (C58_refuted); setters bypass the checks (C60_refuted, C60_call_refuted).

## 6. Testing the theorems

`seeded/LOG.jsonl` records wrong models tried: the definition edited, the edit, the
claim it breaks, the theorems that failed, and those tightened afterwards.
