{"id": "C01", "title": "Fixed-width record round trip", "statement": "For every TOUGH record layout used by the package and every list of values whose text fits its columns, the line produced for the values, when read back with the same layout, yields exactly the same number of values, each being the normal form of the value written (blank for a missing value, the string without outer blanks, the integer, the float given by its printed decimal) and no value leaks into a neighbouring column.", "quantifier": "every layout of fixed-width fields, every list of values of any length whose printed forms fit", "why_tests_cant": "The interaction between a value's printed width and its neighbours' columns depends on every field at once; tests draw a few random positive values.", "anchors": ["toughio/_io/input/tough/_helpers.py: read_record, write_record, to_str", "toughio/_common.py: str2format, block_to_format"]}
{"id": "C02", "title": "A float survives a file to the printed precision", "statement": "A finite number written in a field printing k digits after the point and read back differs from the original by at most half a unit of the last printed digit plus one binary64 rounding of the decimal (relative deviation at most 0.5*10^-k + 2^-52); sign and zero are preserved.", "quantifier": "every record layout, every position, every finite binary64 number of magnitude 0 or 10^-99..10^99, every k up to 13 (the widest format of the package)", "why_tests_cant": "There are 2^64 doubles and several formats; random tests use values in (0,1) with absolute tolerances that would accept garbage small values.", "anchors": ["toughio/_io/input/tough/_helpers.py: read_record, str2float, to_str"]}
{"id": "C03", "title": "Writing is stable: write, read, write gives the same bytes", "statement": "For every finite number and every float format of the package, printing the number, parsing the text, and printing the result again yields the same text; therefore a record that has been read can be rewritten any number of times without drift.", "quantifier": "every record layout of at most 80 columns, every list of values that fit with magnitude 0 or 10^-99..10^99 (or not finite), every float format up to 14 significant digits, any number of cycles", "why_tests_cant": "Drift under repeated cycles is a property of all histories; tests do one cycle.", "anchors": ["toughio/_io/input/tough/_helpers.py: read_record, write_record, str2float"]}
{"id": "C04", "title": "Which numbers fit the columns of their field", "statement": "A number written with k decimals fits a field of w columns exactly when k + 6 (k + 7 if negative) is at most w; so every non-negative number of ordinary magnitude fits every float field, and a negative one fits all but the 10.4e and 15.9e fields. There it pushes the following fields out of their columns: a parameter set with gravity = -9.81 does not come back from its own file.", "quantifier": "every number accepted by the parameter checks and every field of every block", "why_tests_cant": "Whether a value fits depends on sign and exponent of the value in combination with the declared width; tests only use values in (0,1).", "anchors": ["toughio/_io/input/tough/_helpers.py: to_str", "toughio/_common.py: block_to_format", "toughio/_io/input/tough/_write.py: _write_param"]}
{"id": "C05", "title": "ROCKS block round trip", "statement": "Rock definitions (names, densities, porosities, isotropic or anisotropic permeabilities, optional second record, relative permeability and capillarity models) written by write_input are returned by read_input with the same rocks in the same order, the same fields set, and each number equal to its printed decimal; optional records are consumed exactly when they were written, and the reader stops exactly at the end of the block. An order given as a tuple that misses a rock makes the writer fail (AttributeError), where a list is completed.", "quantifier": "any number of rocks, any subset of optional fields, any text following the block", "why_tests_cant": "The reader decides which optional records follow from a count in the first record and from blankness; the combinations over several consecutive rocks are unbounded.", "anchors": ["toughio/_io/input/tough/_write.py: _write_rocks", "toughio/_io/input/tough/_read.py: _read_rocks", "toughio/_io/input/tough/_read.py: _read_rpcap"]}
{"id": "C06", "title": "RPCAP block round trip", "statement": "Default relative permeability and capillarity (id and up to seven parameters, or absent) written by write_input are returned by read_input; absent models stay absent.", "quantifier": "every id, every list of at most 7 parameters, all four presence combinations", "why_tests_cant": "Parameter lists and presence combine freely, and values are arbitrary floats.", "anchors": ["toughio/_io/input/tough/_write.py: _write_rpcap", "toughio/_io/input/tough/_read.py: _read_rpcap"]}
{"id": "C07", "title": "FLAC block round trip", "statement": "A FLAC block written by write_input is read back with the same creep flag (as 0 or 1), porosity model, version and per-rock models, each attached to its own rock whatever the rock order. The flag comes back as a number, which the type check refuses: parameters read from a file with a FLAC block cannot be written again (TypeError).", "quantifier": "any number of rocks, any models, any text following the block", "why_tests_cant": "Tests compare with numpy.allclose where True and 1 are equal and never write what they read.", "anchors": ["toughio/_io/input/tough/_write.py: _write_flac", "toughio/_io/input/tough/_read.py: _read_flac", "toughio/_io/input/tough/_helpers.py: check_parameters, dtypes"]}
{"id": "C08", "title": "Equation-of-state, solver and flag blocks round trip", "statement": "MULTI (number of components, phases, isothermal or not, explicit settings overriding the EOS table), SOLVR, START and NOVER settings written by write_input are those read back, solver settings that were left out being the package defaults. Two boundaries: a solver without \"method\" cannot be written (KeyError), and a file written with start off is not distinguishable from one that says nothing, so a read/write cycle turns start on.", "quantifier": "every EOS name of the package, every override, every solver setting, both values of each flag", "why_tests_cant": "Default filling makes an absent setting and an explicit one interact; tests check one random assignment.", "anchors": ["toughio/_io/input/tough/_write.py: _write_multi, _write_solvr, _write_start, _write_nover", "toughio/_io/input/tough/_read.py: _read_multi, _read_solvr, read_buffer"]}
{"id": "C09", "title": "PARAM block round trip", "statement": "Computation options, the 24 one-digit options, non-empty time-step lists of any length, convergence settings and default initial conditions written by write_input are those read back, options keeping their index; the line after the block is consumed only if it holds default initial conditions. (Outside: absent time steps, options of two digits and a ninth initial condition do not come back.)", "quantifier": "every assignment of one-digit options, every list of time steps that fit, at most 8 initial conditions, whatever block follows", "why_tests_cant": "The reader peeks at the following line and infers the number of time-step lines from a float; list lengths are unbounded and cover multiples of 8.", "anchors": ["toughio/_io/input/tough/_write.py: _write_param", "toughio/_io/input/tough/_read.py: _read_param"]}
{"id": "C10", "title": "SELEC block round trip", "statement": "Integer selections keep their index and float selections their order through write_input and read_input, for any number of records of up to eight floats (a single record comes back flat). Boundary: selections without floats come back without the \"floats\" entry that write_input requires, so what was read cannot be written again, and without floats a missing first integer makes the file unreadable.", "quantifier": "every integer assignment, every number of floats", "why_tests_cant": "The first integer encodes the number of float lines, so the two parts interact for every length.", "anchors": ["toughio/_io/input/tough/_write.py: _write_selec", "toughio/_io/input/tough/_read.py: _read_selec"]}
{"id": "C11", "title": "Per-rock initial conditions (INDOM) round trip", "statement": "Initial conditions given per rock (one record when at most 4 values, two records when more) written by write_input are returned for the same rocks by read_input, provided the rocks with more than 4 values come first and no rock name reads as a number; otherwise the written file may not be readable.", "quantifier": "any number of rocks, any number of values up to 8 per rock, any rock names that do not read as numbers", "why_tests_cant": "Whether the next line belongs to the current rock or starts the next one is decided by whether it parses as numbers and by what happened for the first rock: a history property.", "anchors": ["toughio/_io/input/tough/_write.py: _write_indom", "toughio/_io/input/tough/_read.py: _read_indom"]}
{"id": "C12", "title": "MOMOP block round trip", "statement": "The 40 one-digit additional options written by write_input are read back under the same index.", "quantifier": "every assignment of digits to options 1..40", "why_tests_cant": "2^40 subsets times digits.", "anchors": ["toughio/_io/input/tough/_write.py: _write_momop", "toughio/_io/input/tough/_read.py: _read_momop"]}
{"id": "C13", "title": "TIMES block round trip", "statement": "A list of output times of any length is read back with the same length, order and printed values.", "quantifier": "every list of times, every length", "why_tests_cant": "Line counts depend on length modulo 8; lengths are unbounded.", "anchors": ["toughio/_io/input/tough/_write.py: _write_times", "toughio/_io/input/tough/_read.py: _read_times"]}
{"id": "C14", "title": "History blocks (FOFT, COFT, GOFT) round trip", "statement": "Element and generator labels of up to 5 characters and connection labels of up to 10 listed for history output are read back as the same list in the same order. Boundary: longer labels, which the package supports elsewhere, are cut, so that distinct elements may become equal.", "quantifier": "every list of labels, every label length the package supports", "why_tests_cant": "Lists are unbounded and label lengths vary; tests use 5-character labels.", "anchors": ["toughio/_io/input/tough/_write.py: _write_foft, _write_coft, _write_goft", "toughio/_io/input/tough/_read.py: _read_foft, _read_coft, _read_goft", "toughio/_common.py: block_to_format"]}
{"id": "C15", "title": "GENER block round trip", "statement": "Sources and sinks (single or several per element, constant or with time tables with or without enthalpies) written by write_input are returned by read_input for the same elements, in order, with the same tables, provided the sources of one element either all carry an enthalpy entry or all are tables without enthalpies.", "quantifier": "any number of elements, any number of sources per element, tables of 2 to 99999 steps, every label length 5..9, every reader state", "why_tests_cant": "Generators of one element are merged field by field by the reader, so the result depends on all generators of the element and their table kinds.", "anchors": ["toughio/_io/input/tough/_write.py: _write_gener", "toughio/_io/input/tough/_read.py: _read_gener"]}
{"id": "C16", "title": "DIFFU block round trip", "statement": "A table of diffusivities is read back row by row and the line following the block is not consumed.", "quantifier": "every number of rows with at most 8 entries each", "why_tests_cant": "The block has no terminator: the reader stops at the first line that does not parse, which depends on what follows.", "anchors": ["toughio/_io/input/tough/_write.py: _write_diffu", "toughio/_io/input/tough/_read.py: _read_diffu"]}
{"id": "C17", "title": "OUTPU block round trip", "statement": "The output format and the output variables (each with no index, one index, or several rows of indices) written by write_input are read back, format in upper case and names in lower case, and the block following OUTPU in the file is still seen by the reader. This holds when variables are given and their names differ by more than case; a format without any variable makes the reader swallow the header of the next block, and names differing only by case are merged.", "quantifier": "every format, every dictionary of variables with non-empty one-line names distinct up to case and rows of up to two indices, every following text", "why_tests_cant": "Loss of the following block depends on which block follows and whether variables are present.", "anchors": ["toughio/_io/input/tough/_write.py: _write_outpu", "toughio/_io/input/tough/_read.py: _read_outpu"]}
{"id": "C18", "title": "ELEME block round trip", "statement": "Elements written by write_input are read back under the same labels in the same order with the same NSEQ/NADD, material, volume, heat exchange area, permeability modifier and centre (rounded to the columns); the COORD block gives the centres 13 decimals. The reader must know the label length or guess it from the first record: digits from the sixth character on and no digit right after the label.", "quantifier": "every dictionary of elements with a material (name not made of digits, or number) and a centre, every order, every label length 5..9, every reader state", "why_tests_cant": "The column layout depends on the label length, which the reader infers from the first line; sizes are unbounded.", "anchors": ["toughio/_io/input/tough/_write.py: _write_eleme", "toughio/_io/input/tough/_read.py: _read_eleme", "toughio/_common.py: get_label_length"]}
{"id": "C19", "title": "CONNE block round trip", "statement": "Connections written by write_input are read back under the same pair of labels with the same NSEQ/NADD, direction, distances, interface area, gravity cosine and emittance. The reader must know the label length or guess it from the first record (the second label must not start with a digit).", "quantifier": "every dictionary of connections, every order, every label length 5..9, every reader state", "why_tests_cant": "As for elements; the pair of labels shares the layout inference.", "anchors": ["toughio/_io/input/tough/_write.py: _write_conne", "toughio/_io/input/tough/_read.py: _read_conne"]}
{"id": "C20", "title": "INCON block round trip", "statement": "Initial conditions per element (porosity, up to five user values, up to eight primary variables) written by write_input are read back for the same elements in the same order, provided labels start with a letter (and do not spell inf or nan) and the elements with more than four variables come first.", "quantifier": "every dictionary of initial conditions, every order, every label length 5..9, every reader state", "why_tests_cant": "The reader remembers from the first element whether records have one or two value lines.", "anchors": ["toughio/_io/input/tough/_write.py: _write_incon", "toughio/_io/input/tough/_read.py: _read_incon"]}
{"id": "C21", "title": "Title round trip and termination", "statement": "read_input returns (with a result or an error) for every file whose title is followed by a line that starts a block, never returns for any other file, and the title lines written by write_input are those read.", "quantifier": "every file content, every list of title lines", "why_tests_cant": "Non-termination cannot be observed by a test; it must be shown for every number of steps.", "anchors": ["toughio/_io/input/tough/_read.py: read_buffer, _read_title", "toughio/_io/input/tough/_write.py: write_buffer"]}
{"id": "C22", "title": "Whole input file round trip", "statement": "For every set of parameters whose values fit their columns, read_input applied to the file written by write_input returns the same parameters, completed by the defaults of the writer and in normal form (integers and floats as the columns hold them), whichever subset of blocks is present.", "quantifier": "every well-formed parameter set, every subset of the blocks", "why_tests_cant": "2^24 subsets of blocks, each with unbounded content, and each block's reader must stop exactly where the next block starts.", "anchors": ["toughio/_io/input/tough/_write.py: write, write_buffer", "toughio/_io/input/tough/_read.py: read, read_buffer"]}
{"id": "C23", "title": "Only the requested blocks are written", "statement": "write_input with the selection 'mesh', 'gener' or 'incon' writes exactly the part of the whole file with ELEME/COORD/CONNE, GENER or INCON; any other selection than these and 'all' is refused; a selection with content is read back as those parameters and nothing else; the whole file ends with ENDCY.", "quantifier": "every parameter set, every selection", "why_tests_cant": "All subsets of selections and contents.", "anchors": ["toughio/_io/input/tough/_write.py: write_buffer"]}
{"id": "C24", "title": "A failed write leaves an existing file untouched", "statement": "If writing a TOUGH input file raises, no file has changed; otherwise the named file holds exactly the text produced and no other file has changed.", "quantifier": "every previous content, every parameter set, every point of failure", "why_tests_cant": "The point of failure ranges over all of the serialisation; tests do not inject failures.", "anchors": ["toughio/_io/input/tough/_write.py: write", "toughio/_io/input/json/_json.py: write"]}
{"id": "C25", "title": "Wrongly typed parameters are rejected", "statement": "Whatever write_input writes, every checked parameter was absent or of a type listed for it; a top-level parameter, or a parameter of a block, generator, element, connection or initial condition, of another type is a TypeError.", "quantifier": "every parameter dictionary", "why_tests_cant": "The space of parameter dictionaries is unbounded and nested per rock, element, connection.", "anchors": ["toughio/_io/input/tough/_helpers.py: dtypes, check_parameters"]}
{"id": "C26", "title": "JSON input file round trip", "statement": "Parameters written to a JSON input file are read back the same, with integer option indices restored as integers, sequences as lists and numpy integers as plain integers, names in the same order (the order of options may change), provided selections have their integers.", "quantifier": "every parameter dictionary", "why_tests_cant": "JSON turns every key into a string; restoring needs every nested integer-keyed dictionary to be handled.", "anchors": ["toughio/_io/input/json/_json.py: read, write"]}
{"id": "C27", "title": "Label length is inferred correctly", "statement": "For every line, the label length inferred is the largest n from 5 to 9 such that the characters 6 to n are digits; hence for every label of 5 to 9 characters of the shape produced by the package (digits from the sixth character on), followed by no digit, it is the length of the label.", "quantifier": "every label of length 5..9, every continuation of the line", "why_tests_cant": "All labels and all following columns.", "anchors": ["toughio/_common.py: get_label_length"]}
{"id": "C28", "title": "Automatic element labels are unique and well-formed", "statement": "Labels generated for a mesh have the requested length (four or more) or the shortest length from five that holds the mesh; they start with a letter, continue with two letters or digits other than 0, end in digits, and are pairwise distinct; a mesh larger than the length can hold is refused. At a given length the label of a cell does not depend on the number of cells, and labels of 5 to 9 characters are recognised by the input reader. (Requested lengths below four are not respected.)", "quantifier": "every number of cells, every label length", "why_tests_cant": "Tests check a few sizes; capacity of length 5 is 3 185 000 labels.", "anchors": ["toughio/_mesh/_common.py: labeler"]}
{"id": "C29", "title": "File format dispatch", "statement": "The format last registered for an extension is the one used for every file name with that extension in any letter case ('tough' without any), its last registered function is called, an explicit format overrides the extension, and for input files any other explicit format than tough and json is refused.", "quantifier": "every registration history and file name", "why_tests_cant": "Registration is a history of updates to shared tables.", "anchors": ["toughio/_common.py: register_format, filetype_from_filename", "toughio/_io/input/_helpers.py: read, write"]}
{"id": "C30", "title": "Reordering outputs by labels", "statement": "Reordering an output by a list of labels that is a permutation of its own distinct labels gives every label exactly the data it had, in the requested order, for every data column. A list of another length, or with a label the output does not have, is refused; a list that names a label twice in place of another is accepted and loses the data of the other.", "quantifier": "every output, every permutation, any number of columns", "why_tests_cant": "n! permutations.", "anchors": ["toughio/_io/output/_common.py: reorder_labels"]}
{"id": "C31", "title": "CSV output round trip", "statement": "Element and connection outputs with the same columns and at least one row, written in CSV, are read back without naming the format with the same number of time steps, times (9 digits), labels, column names and values (13 digits). Columns that the last output does not have, and the columns of outputs without rows, are lost.", "quantifier": "every list of outputs; any number of time steps, rows and columns; names and labels without comma, quote, equal sign or outer blanks", "why_tests_cant": "Time-step separators, labels and numbers share one text format; unbounded sizes.", "anchors": ["toughio/_io/output/csv/_csv.py: read, write"]}
{"id": "C32", "title": "PetraSim output round trip", "statement": "Element outputs written in the PetraSim format are read back grouped by time in increasing order of time with labels and values preserved, provided their times differ as printed (13 digits); outputs whose printed times agree are merged into one.", "quantifier": "every list of outputs in any order of time, any number of rows and columns", "why_tests_cant": "Grouping and sorting over unbounded rows.", "anchors": ["toughio/_io/output/petrasim/_petrasim.py: read, write"]}
{"id": "C33", "title": "Written outputs are recognised", "statement": "An output file written by the package in CSV, PetraSim or Tecplot format is recognised as that format when it is read back without naming a format, unless a column of a CSV or PetraSim file has an equal sign in its name, which makes it pass for Tecplot.", "quantifier": "every output content", "why_tests_cant": "Depends on the header text, which contains user-defined column names.", "anchors": ["toughio/_io/output/_helpers.py: get_output_type"]}
{"id": "C34", "title": "Reading a TOUGH listing", "statement": "The element or connection tables of a TOUGH listing are read with the times, labels, column names and values printed, skipping repeated headers and blank lines, the label length being inferred from the first row. With any explicit label length every listing that has a row is refused (UnboundLocalError).", "quantifier": "every listing, any number of steps, rows and columns, any other text around the tables", "why_tests_cant": "The layout of a listing is open-ended; the explicit label length takes a path no test exercises.", "anchors": ["toughio/_io/output/tough/_tough.py: _read_table"]}
{"id": "C35", "title": "merge keeps every line", "statement": "merge writes the input file with the whole MESH and INCON files of its directory inserted, contiguous and unchanged, just before the first end keyword; when anything is refused no file changes, and no file other than the output ever changes. (Input files with an end keyword; MESH and INCON files whose last line is complete.)", "quantifier": "every content of the files", "why_tests_cant": "File contents are unbounded.", "anchors": ["toughio/_cli/_merge.py: merge"]}
{"id": "C36", "title": "save2incon keeps the initial conditions", "statement": "Converting SAVE to INCON copies the file unchanged; with the reset option it is cut exactly before the restart trailer and ended by a blank line; no file other than the output changes. (A refused SAVE file empties the output, and converting a file onto itself loses it.)", "quantifier": "every file content, every point of failure", "why_tests_cant": "Crash/refusal points and previous file contents are not exercised by tests.", "anchors": ["toughio/_cli/_save2incon.py: save2incon"]}
{"id": "C37", "title": "Voxelised export puts data in the right cell", "statement": "export with voxelisation assigns to each voxel the data of the output element located at the voxel's centre when the elements form one horizontal layer exported by layers, or one horizontal row; in general the voxel of rank n gets the data of element n in the order of height, y and x. The points are the coordinates of the output, with zero along the axes where they do not vary, and there is an error when the output has no coordinates at all.", "quantifier": "every full grid of points, origin, both numbering orders, all data (otherwise shown false)", "why_tests_cant": "Test data has a single layer, for which all vertical orders coincide.", "anchors": ["toughio/_cli/_export.py: export", "toughio/meshmaker/_voxelize.py", "toughio/meshmaker/_structured_grid.py"]}
{"id": "C38", "title": "Cell data follow their cells between block layouts", "statement": "Splitting cell data by cell block and concatenating gives back the data; converting between the flat, per-type and per-block layouts keeps each cell's data with that cell.", "quantifier": "every list of cell blocks and data", "why_tests_cant": "Unbounded numbers of blocks, repeated types, empty blocks.", "anchors": ["toughio/_mesh/_mesh.py: split", "toughio/_mesh/_common.py: get_old_meshio_cells, get_new_meshio_cells"]}
{"id": "C39", "title": "Mesh connectivity", "statement": "Two cells are reported connected through a face exactly when that face is shared by exactly these two cells; the relation is symmetric and every cell face has at most one neighbour.", "quantifier": "every mesh of tetrahedra, pyramids, wedges and hexahedra", "why_tests_cant": "Arbitrary meshes; the algorithm sorts all faces of the mesh.", "anchors": ["toughio/_mesh/_properties.py: _connections, _faces, _get_faces"]}
{"id": "C40", "title": "Structured grids", "statement": "A structured grid has the product of the divisions as number of cells, every cell is the box of its three intervals with the vertices in canonical order, all vertex indices are valid, and cells are ordered by columns (default) or by layers from top to bottom.", "quantifier": "every list of divisions, every origin, both orders, every addition of coordinates (rounded or not)", "why_tests_cant": "All grid sizes; index arithmetic with reversed slices.", "anchors": ["toughio/meshmaker/_structured_grid.py: structured_grid, _grid_3d"]}
{"id": "C41", "title": "Extrusion to 3D", "statement": "Extruding a 2D mesh of triangles and quads over a list of heights gives one prism per 2D cell and height, at the right coordinates, in order, and cell data stay aligned with cells. (With other blocks, e.g. the segments of a border, the blocks disappear and their data remain.)", "quantifier": "every 2D mesh, every list of heights, every axis", "why_tests_cant": "Unbounded meshes and mixtures of cell types.", "anchors": ["toughio/_mesh/_mesh.py: extrude_to_3d"]}
{"id": "C42", "title": "Pruning duplicates", "statement": "Pruning leaves no two equal points and, within a block, no two cells with the same vertices; it keeps the coordinates of every kept cell, keeps at least one of every set of duplicates with its data, and pruning again changes nothing. (Duplicates in different blocks remain.)", "quantifier": "every mesh", "why_tests_cant": "All patterns of duplicates.", "anchors": ["toughio/_mesh/_mesh.py: prune_duplicates"]}
{"id": "C43", "title": "Material assignment history", "statement": "After any sequence of set_material calls, the material reported for a cell is the one last assigned to it, provided a new name is introduced only while every known name is assigned to some cell; selections out of range or of the wrong length are refused. (Otherwise the number of an unused material is given to the new one and both become one.)", "quantifier": "every initial mesh, every sequence of assignments", "why_tests_cant": "Histories are unbounded; identifiers are reused.", "anchors": ["toughio/_mesh/_mesh.py: set_material, materials"]}
{"id": "C44", "title": "MESH file lists every interface once", "statement": "The MESH file written for a mesh contains exactly one ELEME record per cell, with its label, material, volume (times 1.0e50 when the state of the cell is fixed) and centre, and exactly one CONNE record per pair of cells and shared face, naming the two cells' labels.", "quantifier": "every mesh of tetrahedra, pyramids, wedges and hexahedra with at least one interface, labels of 5 to 9 characters", "why_tests_cant": "All adjacency structures.", "anchors": ["toughio/_mesh/tough/_tough.py: write_mesh, _write_eleme, _write_conne"]}
{"id": "C45", "title": "Material selection by name in MESH files", "statement": "Renaming materials and moving materials to the end of the ELEME block apply to every cell of the named material and to no other.", "quantifier": "every choice of materials whose names have at least 5 characters and no blanks around (shorter names are shown not to be matched)", "why_tests_cant": "Depends on the length of the name; tests use 5-character names.", "anchors": ["toughio/_mesh/tough/_tough.py: write_mesh", "toughio/_mesh/tough/_helpers.py: _write_eleme"]}
{"id": "C46", "title": "Mesh INCON file lists every cell with defined conditions", "statement": "The INCON file written for a mesh lists exactly the cells for which a primary variable, porosity or permeability has been defined.", "quantifier": "every assignment of finite values in which a cell with a defined variable has a non-negative one (otherwise shown false)", "why_tests_cant": "Depends on signs and magnitudes of values.", "anchors": ["toughio/_mesh/tough/_helpers.py: _write_incon"]}
{"id": "C47", "title": "FLAC3D node ordering", "statement": "A solid cell written to FLAC3D and read back has its corners in the same order or with the opposite orientation, a surface cell keeps the order; without rounding the first four FLAC3D nodes of a zone form a right-handed frame unless they are coplanar, and cells which follow the VTK convention come back unchanged.", "quantifier": "every cell type of each shape (linear and quadratic), every coordinates, any arithmetic for the first part", "why_tests_cant": "All coordinates and cell types.", "anchors": ["toughio/_mesh/flac3d/_flac3d.py: meshio_to_flac3d_order, flac3d_to_meshio_order, _translate_zones, _translate_faces"]}
{"id": "C48", "title": "FLAC3D round trip, text and binary", "statement": "A mesh without materials written to FLAC3D, in the binary or the text format, is read back with the same points (all bits of the coordinates) and the same cells: first the solid cells then the surface cells, each with its corners, consecutive cells of one type in one block; other cells are left out.", "quantifier": "every mesh with three 64-bit coordinates per point that the writer accepts", "why_tests_cant": "Every number of cells, every type and every coordinate.", "anchors": ["toughio/_mesh/flac3d/_flac3d.py: write, read"]}
{"id": "C49", "title": "FLAC3D group numbers designate the right cells", "statement": "In a mesh with materials written to FLAC3D and read back, each cell belongs to a group with the name of its material and the dimension of the cell, and distinct groups have distinct names and numbers: provided solid cells come before surface cells and no two groups share a name, and in text also names without blanks and at most one group of surfaces. None of these conditions can be dropped.", "quantifier": "every mesh that the writer accepts, any number of groups, both formats", "why_tests_cant": "Depends on the order of cell blocks and the number of groups.", "anchors": ["toughio/_mesh/flac3d/_flac3d.py: write, _translate_groups, _read_group"]}
{"id": "C50", "title": "AVS-UCD round trip", "statement": "A mesh written to AVS-UCD and read back has the same points (a zero third coordinate added in the plane), the same cells in the same order, each with the same corners in the same order, the materials of the cells (the first array with a material name, zeros if none), and the data of points and cells attached to the same points and cells, to fifteen digits and under the same names with blanks as underscores; names without commas and distinct. In the file each cell has one line with its number, material, type word and its nodes in the order of the format: pyramids apex first, prisms and hexahedra upper face first, tetrahedra with the last two nodes exchanged, so that first faces turn to the other side than in the mesh.", "quantifier": "every mesh with points and cells of the eight types of the format, any number of blocks and data arrays", "why_tests_cant": "All cell types, block layouts, numbers of arrays and values.", "anchors": ["toughio/_mesh/avsucd/_avsucd.py: read_buffer, write", "toughio/_mesh/_helpers.py: read, write"]}
{"id": "C51", "title": "Selecting cells", "statement": "near returns, for each query point, the cell whose centre is nearest (the lowest number among ties); the box filter returns, in order, exactly the cells whose centre is in the box when each length is given with a start and is not zero. A length of zero is taken as no bound, and a length without a start selects no cell.", "quantifier": "every mesh, every point, every box", "why_tests_cant": "Quantifies over all cells and degenerate boxes.", "anchors": ["toughio/_mesh/_mesh.py: near", "toughio/_mesh/_filter/box/_box.py"]}
{"id": "C52", "title": "Voxel spacing from scattered centres", "statement": "Voxelisation of one axis with at least two coordinates yields intervals whose centres are the given coordinates; voxelising the centres of a grid with positive sizes yields this grid.", "quantifier": "every increasing sequence of coordinates and origin, every order of the points; exact arithmetic", "why_tests_cant": "A recurrence over the whole sequence.", "anchors": ["toughio/meshmaker/_voxelize.py: voronoi1d"]}
{"id": "C53", "title": "Cylindric grid volumes", "statement": "Each cell of a cylindric grid has the volume pi*(r1^2-r0^2)*(z1-z0) and the face areas of the ring between the radii and heights of its own nodes, in both orders, and the volumes add up to pi*R^2*H. Sizes which are not positive are refused.", "quantifier": "every list of ring and layer sizes, both orders", "why_tests_cant": "All sizes and both orders.", "anchors": ["toughio/meshmaker/_cylindric_grid.py: CylindricMesh"]}
{"id": "C54", "title": "Time series order", "statement": "write_time_series writes the steps in increasing time, each with its own data, split by cell block so that putting the pieces together gives the data back; missing times are the step numbers.", "quantifier": "every list of times and data", "why_tests_cant": "n! orders.", "anchors": ["toughio/_mesh/_helpers.py: write_time_series"]}
{"id": "C55", "title": "Interpolated data stay within bounds", "statement": "Point data obtained from cell data are averages, weighted by volume, of the cells around the point, so they lie between the minimum and the maximum of these; cell data obtained from point data lie between those of the nodes; constants are preserved. A mesh with a point belonging to no cell cannot be interpolated.", "quantifier": "every mesh and data", "why_tests_cant": "All incidence structures.", "anchors": ["toughio/_mesh/_mesh.py: cell_data_to_point_data, point_data_to_cell_data", "toughio/_mesh/_common.py: interpolate_data"]}
{"id": "C56", "title": "Relative permeabilities are fractions", "statement": "For every saturation in [0,1] the relative permeability models return liquid and gas permeabilities in [0,1]: Linear and Fatt-Klikoff for all accepted parameters under any monotone rounding; Corey and Grant for all accepted parameters in exact arithmetic (in binary64 their last bits leave [0,1]); Pickens exactly when its exponent is not negative; Verma exactly when its two saturations differ; van Genuchten-Mualem, which checks nothing, when m > 0, slr < sls and slr + sgr is not 1. Other saturations are refused with ValueError, and arrays are treated element by element.", "quantifier": "every model, all parameters, every saturation", "why_tests_cant": "Continuous ranges.", "anchors": ["toughio/relative_permeability/"]}
{"id": "C57", "title": "Relative permeabilities are monotone", "statement": "With growing liquid saturation the liquid permeability does not decrease and the gas permeability does not increase: Linear, Corey, Grant and Fatt-Klikoff for all accepted parameters, Pickens with x >= 0, van Genuchten-Mualem with m > 0, slr < sls and slr + sgr < 1, Verma with slr < sls, b <= 0 and b + 2c <= 0 (its defaults qualify; Verma accepts parameters for which it is false).", "quantifier": "every model, all parameters, every pair of saturations", "why_tests_cant": "Continuous ranges, piecewise definitions.", "anchors": ["toughio/relative_permeability/"]}
{"id": "C58", "title": "Model identifiers are unique", "statement": "Different capillarity models have different TOUGH identifiers, and so have different relative permeability models, except Fatt-Klikoff and van Genuchten-Mualem, which share identifier 7.", "quantifier": "every pair of models", "why_tests_cant": "Pairwise over classes; not tested.", "anchors": ["toughio/relative_permeability/", "toughio/capillarity/"]}
{"id": "C59", "title": "Capillary pressures are bounded and monotone", "statement": "Capillary pressures are not positive, not below the cut-off and do not decrease with saturation: Linear with pmax >= 0; TRUST with p0, pe >= 0 and eta > 0, under any monotone rounding; van Genuchten with 0 < m <= 1, alpha <> 0 and saturations up to sls or equal to 1; Pickens (no cut-off) with p0 >= 0, slr < 0.999 sl0 and x < 0; Milly (no cut-off) on each of its two pieces. The constructors accept parameters outside these conditions, for which positive, decreasing, complex or undefined pressures are returned; Milly's curve always drops where its pieces meet.", "quantifier": "every model, all parameters, every saturation", "why_tests_cant": "Continuous ranges, piecewise definitions.", "anchors": ["toughio/capillarity/"]}
{"id": "C60", "title": "Model parameters cannot become invalid", "statement": "A model object always has the number of parameters its class expects, and they are those given to the constructor or the last list of that length assigned to its attribute parameters; it stays valid if all assigned lists are ones the constructor accepts. The setters check nothing else, so an object can hold parameters its constructor refuses, and then fail when called.", "quantifier": "every sequence of parameter updates", "why_tests_cant": "History property.", "anchors": ["toughio/relative_permeability/", "toughio/capillarity/"]}
{"id": "C61", "title": "Cell volumes", "statement": "The volume of a cell is the volume enclosed by its faces (convex cells with plane faces); it is the absolute determinant of the edges for a parallelepiped, a half, a third or a sixth of it for the wedge, pyramid and tetrahedron on these edges; it is never negative and does not depend on translation.", "quantifier": "every cell, all coordinates", "why_tests_cant": "Continuous coordinates.", "anchors": ["toughio/_mesh/_properties.py: _volumes, _face_areas"]}
{"id": "C62", "title": "Tecplot output round trip", "statement": "Element outputs written in the Tecplot format are read back without naming the format with the same number of zones, times (8 digits), column names and values (13 digits), without their labels, as long as names have less than 18 characters and numbers less than 20; longer ones run into their neighbours.", "quantifier": "every list of outputs with coordinates X and Y, any number of zones, rows and columns", "why_tests_cant": "Column widths depend on every name and every value.", "anchors": ["toughio/_io/output/tecplot/_tecplot.py: read, write", "toughio/_mesh/tecplot/_tecplot.py: _read_variables, _read_zone"]}
{"id": "C63", "title": "Tecplot mesh files round trip", "statement": "A mesh written to a Tecplot file and read back has the same points to the last bit, its solid cells (its flat cells if it has no solid ones) in the same order each with the same edges, and the data of the points and of these cells as scalar arrays of floats, the first array naming materials under the name material; cells all of one type among triangle, quad, tetra and hexahedron keep their type and the order of their nodes. This requires a first x coordinate which is not negative, no flat block before the solid ones, and distinct names without blanks, commas, quotes and equal signs.", "quantifier": "every mesh in two or three dimensions with any blocks, data and names meeting the conditions, and every printing of floats which reads back", "why_tests_cant": "The header is parsed by heuristics on the first character of each line and on blanks; the failing inputs are signs, orders of blocks and names that sample meshes do not have.", "anchors": ["toughio/_mesh/tecplot/_tecplot.py: read_buffer, write", "toughio/_mesh/_helpers.py: read, write"]}
{"id": "C64", "title": "SAVE files are read as they were written", "statement": "Initial conditions written to an INCON file, with the first line and the +++ line of a SAVE file, and read as an output give one output of elements with one row per element, in the order of the file or in the one asked: the columns X1, X2, ... have the values of the initial conditions of each element, the column porosity its porosity and the column userx its user values, each as the INCON reader gives them. It needs a porosity for every element, and as many values and as many user values for all elements. An order of another length or with an unknown label is refused, and so is any order given as an array of two labels or more.", "quantifier": "every set of elements, values and order", "why_tests_cant": "The columns are assembled from dictionaries whose keys differ by element; tests have one file where all elements have the same fields.", "anchors": ["toughio/_io/output/save/_save.py: read", "toughio/_io/input/tough/_read.py: _read_incon", "toughio/_io/output/_helpers.py: read"]}
{"id": "C65", "title": "Results imported in a mesh go to the cells they belong to", "statement": "After Mesh.read_output, each cell has the values of the row which bears its label, whatever the order of the rows, and nothing else of the mesh changes; another number of rows or a cell without a row is refused. For flows between cells, the data of a cell is the sum of the vectors of the flows which enter it, each pointing from the other cell to it with the size of the flow, and it does not depend on which cell a connection names first. The time step asked is the one imported, and one outside the list is refused. The output given is reordered in place, and outputs without labels are refused.", "quantifier": "every mesh, output and time step; exact arithmetic for flows", "why_tests_cant": "The tests import one listing written in the order of the cells; signs and orientations of flows and permuted rows are not covered.", "anchors": ["toughio/_mesh/_mesh.py: Mesh.read_output", "toughio/_io/output/_common.py: reorder_labels"]}
{"id": "C66", "title": "toughio-extract gives every row its own coordinates", "statement": "Extracting a listing with a mesh writes a file with all time steps of the listing where each row keeps its values and receives the coordinates of its element in the mesh, or the middle of its two elements for connections. In CSV the file reads back as these outputs; with --split each time step goes to a file of its own and nothing else on disk changes. A listing naming an element which is not in the mesh, or connections in another format than CSV, is refused and nothing is written. The rows of all time steps must be in the same order, the label length must not be given, and --split always writes CSV.", "quantifier": "every disk, listing, mesh file and arguments", "why_tests_cant": "Coordinates are attached to rows by position from one time step; tests compare one listing whose steps all have the same order.", "anchors": ["toughio/_cli/_extract.py: extract", "toughio/_io/output/_helpers.py: read, write"]}
{"id": "C67", "title": "The areas and normals of faces are those of the polygons", "statement": "Mesh.face_areas gives, for each face of each solid cell, the area of the triangle or quad with the corners of that face, in the order of the cells and of their faces. Mesh.face_normals gives a vector of length 1 square to the face; for a cell which is an affine image of the usual one with the usual orientation it points out of the cell. The two cells of an interface agree on its area when the face is a triangle or a plane convex quad; for a warped quad the area depends on its first corner and they may disagree.", "quantifier": "every 3D mesh of tetrahedra, pyramids, wedges and hexahedra; exact real arithmetic", "why_tests_cant": "The tests compare sums for one structured mesh; the regrouping of triangles and quads by cell over mixed meshes and the orientation of normals for all shapes are not checked.", "anchors": ["toughio/_mesh/_mesh.py: Mesh.face_areas, face_normals", "toughio/_mesh/_properties.py: _face_areas, _face_normals"]}
{"id": "C68", "title": "The geometry written for each connection is that of the interface", "statement": "When a mesh is written for TOUGH, each interface between two cells is measured exactly once, with the area of the common face, the cosine between the line of the centres and the vertical, the axis along which the centres differ (1 when they differ along several), and the distances from both centres to the interface: along the line of the centres, or square to the plane of the face. A cell with a boundary condition gets a distance of 1e-9. When the plane separates the centres, the distances along the line add up to the distance of the centres; orthogonal distances are never longer. The mesh can be written whenever the faces are not flat, the centres differ and the lines are not parallel to the faces.", "quantifier": "every 3D mesh of solid cells, both kinds of nodal distance, every set of boundary cells; exact real arithmetic", "why_tests_cant": "The tests write one structured mesh and compare volumes; which plane, which side, which sign and which axis are used for a general cell is not covered.", "anchors": ["toughio/_mesh/tough/_tough.py: _write_conne, _intersection_line_plane, _distance_point_plane, _isot"]}
{"id": "C69", "title": "The quality of a cell is how well its connections are orthogonal", "statement": "Mesh.qualities gives, for each cell, the least over its interfaces of the absolute cosine between the line of the centres and the normal of the common face: a number between 0 and 1, equal to 1 exactly when each line to a neighbour is square to the common face. It is defined for meshes in which each cell has a neighbour; one cell without a neighbour makes it fail for the whole mesh.", "quantifier": "every 3D mesh of solid cells; exact real arithmetic", "why_tests_cant": "The tests compute it for one structured mesh in which it is 1 everywhere.", "anchors": ["toughio/_mesh/_mesh.py: Mesh.qualities", "toughio/_mesh/_properties.py: _qualities"]}
{"id": "C70", "title": "History files come back as their columns", "statement": "read_history returns, for a history file with a header and rows of numbers separated by commas (names between quotes) or by blanks, the first column under TIME whatever its name and each other column under its own name, in the order of the header, row by row, up to the first blank line or the end of the file. A file without rows is refused. A name with a comma between quotes is cut in two, which shifts the names of the columns and loses the last one.", "quantifier": "every layout, header without repeated names, padding and rows", "why_tests_cant": "The tests compare the sums of the columns of four files, so that the order of the rows and the pairing of names and columns with equal sums are not checked.", "anchors": ["toughio/_io/output/_helpers.py: read_history"]}
{"id": "C71", "title": "The MESH file of a mesh reads back as that mesh", "statement": "When a mesh is written with mesh.write_tough and the MESH file is read with read_mesh, the elements are exactly the cells, each under its label with its material (the new name if material_name has one), its volume (times 1e50 if fixed) and its centre, rounded to the digits of the file, and the connections are exactly the faces shared by two cells, each under the pair of their labels with its direction, distances, area and angle; elements_order and connections_order are those of the file. Needed: labels of 5 to 9 characters (those the mesh makes will do, and their length need not be given), material names of at most five characters that are not only digits, numbers that fit their columns, and no two faces between the same two cells. Longer names are cut, so that two materials may become one; of two faces between the same cells one is lost.", "quantifier": "every set of blocks, labels, materials, renamings, materials moved to the end, measures, with or without COORD", "why_tests_cant": "The tests write one small mesh and look at a few lines; no test reads every cell and connection back for arbitrary labels and connectivities.", "anchors": ["toughio/_mesh/tough/_tough.py: read, write, write_mesh", "toughio/_mesh/tough/_helpers.py", "toughio/_io/input/tough/_read.py: _read_eleme, _read_coord, _read_conne"]}
{"id": "C72", "title": "The INCON file of a mesh reads back as its initial conditions", "statement": "When the initial conditions, porosities and permeabilities of a mesh are written with mesh.write_tough(incon=True) and the INCON file is read with read_input, initial_conditions has exactly the cells for which something is defined, in the order of the mesh, each with its primary variables (None or left out where undefined), its porosity and its three user numbers, rounded to the digits of the file. Needed: labels of 5 to 9 characters, all different, numbers that fit their columns, as many variables in each cell, at most eight, a non-negative one in each cell that has any, and with five or more variables one after the fourth defined in each listed cell. Otherwise the blank third record ends the reading and the cells after it are lost without notice; of more than eight variables the first eight are kept.", "quantifier": "every list of cells, labels, values, porosities and user numbers", "why_tests_cant": "The tests write up to four variables for a few cells; which cells come back depends on where undefined values stand.", "anchors": ["toughio/_mesh/tough/_tough.py: write_incon", "toughio/_mesh/tough/_helpers.py: _write_incon", "toughio/_io/input/tough/_read.py: _read_incon"]}
{"id": "C73", "title": "Meshes survive the conversion to pyvista and back", "statement": "toughio.from_pyvista(mesh.to_pyvista()) has the cells of the mesh in the same order with the same nodes, its points (with a third coordinate 0 for plane meshes) and its point and cell data; only neighbouring blocks of one type become one block, and cells without material get material 1. The mesh of a grid has the cells of the grid in the same order, pixels and voxels becoming quads and hexahedra with the same corners. This holds with VTK 8, for blocks that are not empty and names of data without blanks; with VTK 9 the number of nodes of every cell after the first is read at the wrong place, and names of materials are always lost.", "quantifier": "every mesh of VTK's fixed-size cells, every data array, every grid of these cells, pixels and voxels", "why_tests_cant": "The tests convert one mesh with the version of VTK at hand; they do not see the other versions, mixed cells, empty blocks or voxels.", "anchors": ["toughio/_mesh/_mesh.py: to_pyvista, from_pyvista", "toughio/_mesh/_common.py: vtk_to_meshio_type, vtk_type_to_numnodes"]}
{"id": "C74", "title": "Meshes survive the conversion to meshio and back", "statement": "toughio.from_meshio(mesh.to_meshio()) has the points, cells, point data and cell data of the mesh, every value still on its cell: with meshio 4 or later the blocks are the same, before that the cells are grouped by type in the same order within each type. The material array is called material whatever the format called it, and its names are unchanged; a mesh without material gets one for all cells, whose number is 1, or one more than the largest number of dimension 3, and it is added to the names. This holds with at most one array of materials; with two of them one is lost. The call changes the meshio mesh it is given, so converting it twice gives different materials.", "quantifier": "every mesh with at least one block, every number of data arrays, both layouts of meshio", "why_tests_cant": "The tests convert a few meshes once with the version of meshio at hand; repeated types, both layouts, several material arrays and a second conversion are not seen.", "anchors": ["toughio/_mesh/_mesh.py: to_meshio, from_meshio", "toughio/_mesh/_helpers.py: get_material_key", "toughio/_mesh/_common.py: get_old_meshio_cells, get_new_meshio_cells"]}
{"id": "C75", "title": "toughio-export puts each result on the cell of its label", "statement": "toughio-export with a mesh file and an output file: in an XDMF file every time step of the output is there once, with its time, in order of time; the data of a step are the columns of the output without X, Y, Z, with each value on the cell whose label the row had, whatever the order of the rows, cut in one array for each block of the mesh. For the other formats the mesh written is the one read, with the results of the step asked (counted from the end if negative, the last step by default) on the cells of their labels. A step which does not exist, another number of rows than of cells and a cell without a row are errors. The file is the one named, else it has the name of the output file with the extension of the format in place of its own. The cell data of the mesh file are also written, though the program means to drop them.", "quantifier": "every mesh, every output file in a readable format other than Tecplot, every order of its rows and its steps, every step", "why_tests_cant": "The test exports one output without checking the values on the cells; permuted rows, steps out of order and refused cases are not tried.", "anchors": ["toughio/_cli/_export.py: export", "toughio/_mesh/_mesh.py: Mesh.read_output", "toughio/_mesh/_helpers.py: write_time_series", "toughio/_io/output/_common.py: reorder_labels"]}
{"id": "C76", "title": "A mesh holds together through any history of calls", "statement": "Start from a mesh with one value per cell in every cell data array, one value per point in every point data array, cells of the right number of nodes taken among the points, and points of as many coordinates as dimensions. After any sequence of add_point_data, add_cell_data, set_material, extrude_to_3d, prune_duplicates, cell_data_to_point_data and point_data_to_cell_data, in any order and whether they succeed or fail, the mesh has the same properties, as long as only meshes of triangles and quads are extruded. Each cell of the final mesh comes from one cell of the first: it has its type or is a prism over it, and in all arrays that were not written since it has the values of that cell; points likewise. prune_duplicates and point_data_to_cell_data always succeed, extrude_to_3d succeeds on plane meshes, data arrays are accepted exactly when they have the right length, and the materials are those last assigned. A mesh without materials shows material number one for every cell. Extruding a mesh that also has segments leaves arrays that no longer fit, and the next prune_duplicates fails.", "quantifier": "every consistent mesh, every finite sequence of calls with any arguments", "why_tests_cant": "The tests call each method once on a fresh mesh; sequences of calls, failures in between and arrays following their cells through several calls are not tried.", "anchors": ["toughio/_mesh/_mesh.py: Mesh.add_point_data, Mesh.add_cell_data, Mesh.set_material", "toughio/_mesh/_mesh.py: Mesh.extrude_to_3d, Mesh.prune_duplicates", "toughio/_mesh/_mesh.py: Mesh.cell_data_to_point_data, Mesh.point_data_to_cell_data", "toughio/_mesh/_properties.py: _materials"]}
{"id": "C77", "title": "A merged input file reads as the parameters with the mesh", "statement": "Parameters are written by write_input, a mesh by write_tough beside them, with or without initial conditions, and toughio-merge is called. Reading the merged file with read_input gives the normal form of the parameters, with exactly the cells, materials, volumes, centres and interfaces of the mesh and exactly its initial conditions; these hide those of the input file, and every other entry is as it would be read from the input file alone. Read as a mesh, the file gives exactly the entries on cells, interfaces and initial conditions. This needs that no line of the input file but the last starts with ENDCY or ENDFI in any case: with the title 'Endfield reservoir' the mesh is put before the title, which is lost, and with a rock named ENDCY the merged file cannot be read.", "quantifier": "all well-formed parameters, all meshes with labels of 5 to 9 characters and numbers that fit, with or without COORD and INCON, all label lengths given or guessed", "why_tests_cant": "The test of toughio-merge looks at the lines of one merged file; no test reads a merged file back, for any parameters and meshes together.", "anchors": ["toughio/_cli/_merge.py: merge", "toughio/_io/input/tough/_read.py: read, _read_eleme, _read_coord, _read_conne, _read_incon", "toughio/_io/input/tough/_write.py: write", "toughio/_mesh/tough/_tough.py: read, write"]}
{"id": "C78", "title": "A run restarts from exactly the conditions of the SAVE file", "statement": "A SAVE file holds initial conditions. toughio-save2incon makes from it a file that read_input reads as exactly these initial conditions, whether or not reset is asked, and that read as an output gives the same output as the SAVE file, in any order asked. Without reset it is the same file; with reset no line of it starts the restart data. When the file is made as INCON beside an input file and its MESH, and toughio-merge is called, the merged file is read as the parameters, the cells and interfaces of the mesh, and exactly the initial conditions of the SAVE file; those of an older INCON or of the input file are gone. No other file changes.", "quantifier": "all initial conditions that fit, all first lines and restart data, with or without reset, all parameters and meshes of C77, all contents of the directory", "why_tests_cant": "The chain of two commands, two writers and the reader is never run by a test; it would be so for one file only.", "anchors": ["toughio/_cli/_save2incon.py: save2incon", "toughio/_cli/_merge.py: merge", "toughio/_io/input/tough/_read.py: read, _read_incon", "toughio/_io/output/save/_save.py: read"]}
{"id": "C79", "title": "A file read and written again does not change", "statement": "Parameters are written by write_input. The file is read by read_input and what is read is written again, any number of times: no call fails and the file stays the same, character for character. This is so for well-formed parameters with a title, START, time steps, numbers of magnitude 1e-99 to 1e99, and without the cases in which what is read is not enough to write: it is false with a FLAC block, with a SELEC block without floats or with a generator of empty type (the second write fails), without START or without title (lines are added), with a number of components with mass in MULTI, with a MOMOP block of blank options or without time steps (lines are lost or change), with a model without id (its parameters are lost), and for the centres of cells with full coordinates (rounded twice in ELEME).", "quantifier": "all well-formed steady parameters with any blocks but FLAC, all label lengths given or guessed, any number of rewritings", "why_tests_cant": "The tests compare parameters with what is read once; no test writes what was read. A drift after several rewritings or for some values only is out of their reach.", "anchors": ["toughio/_io/input/tough/_write.py: write, write_buffer, _write_rocks, _write_param, _write_selec, _write_gener, _write_eleme", "toughio/_io/input/tough/_read.py: read, _read_rocks, _read_param, _read_selec, _read_gener, _read_eleme, _read_coord", "toughio/_io/_common.py: read_record, write_record, to_str"]}
{"id": "C80", "title": "Results exported without a mesh", "statement": "toughio-export is run without a mesh file (or with Tecplot results, for which a mesh file makes no difference). Elements which vary along two axes or three: the points of the mesh written are their centres along these axes, in their order, its cells are the simplices of a triangulation of these points, and its point data are the columns of the step asked (the last by default), but for the coordinates. With --voxelize, or for elements along a single axis, the cells are boxes which start at the origin and have the centres of the elements in the middle, and for a single layer of elements each box has the values of its own element. In an XDMF file there are all steps, in order of time, each with its values. --voxelize without an origin of three numbers, elements along one axis without such an origin, a step which is not there and results without coordinates are refused. It is false that the coordinates of the points are those of the elements (a section along X and Z is written with Z in place of Y), that values are at their elements if later steps of an XDMF file list the elements in another order, and for two layers of voxels.", "quantifier": "all files of results which are read, all numbers of elements, steps and columns, all origins, formats and steps asked, any triangulation and any sorting function", "why_tests_cant": "The tests of the command look at a few files of the repository and check the number of cells and some means; they have neither other orders of elements nor several layers nor steps with different orders.", "anchors": ["toughio/_cli/_export.py: export, _get_points, _check_parameters", "toughio/meshmaker/_triangulate.py: triangulate", "toughio/meshmaker/_voxelize.py: voxelize", "toughio/_mesh/_mesh.py: add_point_data, add_cell_data", "toughio/_io/output/_helpers.py: read"]}
{"id": "C81", "title": "Result files are read as they stand", "statement": "toughio.read_output on a CSV file with one header line, one line of units and then lines of times and rows, whatever the spaces, quotes and digits: one output per line of time, in this order, with the labels and the numbers of its rows, each number in its column and row; without lines of time, one output without time. On a PetraSim file, with its rows in any order: one output per time, in increasing order, with the rows of this time in their order. Whatever the file, the outputs which are read have columns of different names, all of one length, that of the labels; and reading ends (with outputs or with an error), unless the first line has an equal sign and no line starts with VARIABLES. It is false that a Tecplot file gives one output per zone (a zone with more rows than announced gives a further output, and a row is lost), and that all steps of a CSV file are read (a blank line ends the reading, without error).", "quantifier": "all files, all numbers of rows, columns and steps, all spaces and digits, all options of the reader", "why_tests_cant": "The tests read a few files of the repository and files written by toughio; other spacings, orders and incomplete files are unbounded in number, and a test cannot establish that reading always ends.", "anchors": ["toughio/_io/output/_helpers.py: read, get_output_type", "toughio/_io/output/_common.py: to_output, reorder_labels", "toughio/_io/output/csv/_csv.py: read, _read_csv", "toughio/_io/output/petrasim/_petrasim.py: read", "toughio/_io/output/tecplot/_tecplot.py: read", "toughio/_io/output/tough/_tough.py: read, _read_table"]}
{"id": "C82", "title": "Tecplot mesh files of other programs are read as they stand", "statement": "toughio.read_mesh on a Tecplot file with one finite element zone: the names of the variables with or without quotes, in any order and in capital or small letters for the axes; the zone on one or several lines, its pairs in any order and with any spacing, with a title, with NV or VARLOCATION ranges or without; the data as one row per point or one variable after another, cut in lines anywhere, with blank lines. The mesh has as many points as said, each with its numbers in the columns X, Y and Z (x, y, z), the cells with their nodes in the order of the file and the type of the zone, and each other variable with its numbers, in the data of the points or of the cells as the file says. It is false when the last value of the zone is joined to its key (ET=TRIANGLE is left out and the file refused), and when a quoted name has three words (columns get names made of pieces of different names, without error).", "quantifier": "all files of this form: all spacings, orders, numbers of variables, points and cells, all digits", "why_tests_cant": "The tests read files written by toughio itself, which use one layout; the layouts of other programs are unbounded in number.", "anchors": ["toughio/_mesh/tecplot/_tecplot.py: read_buffer, _read_variables, _read_zone, _parse_fezone, _read_zone_data"]}
{"id": "C83", "title": "AVS-UCD files of other programs are read as they stand", "statement": "toughio.read_mesh on an AVS-UCD file with any comment lines before the header, with nodes and cells numbered in any way, with the lines of the data of the points and of the cells in any order, with units after the labels: the mesh has the points in the order of the file, the cells each with the nodes whose numbers its line gives, in the order of a mesh, the materials of the lines of the cells, and each array with the row of each node or cell at the place of this node or cell. It is false when data of the cells are named material: they are replaced by the materials of the lines of the cells.", "quantifier": "all files of this form: all numberings, orders, comments, numbers of nodes, cells and arrays, all spellings of numbers", "why_tests_cant": "The tests read files written by toughio itself, numbered from one in order; the numberings of other programs are unbounded in number.", "anchors": ["toughio/_mesh/avsucd/_avsucd.py: read_buffer, _read_nodes, _read_cells, _read_data"]}
{"id": "C84", "title": "FLAC3D grids of other programs are read as they stand", "statement": "toughio.read_mesh on a FLAC3D grid file, text or binary, with gridpoints, zones and faces numbered in any way and distinctly, with remarks between the lines of a text file, with zones, faces and groups in any order as long as nothing is named before it is given: the mesh has the points in the order of the file, the zones and faces each with the nodes whose numbers are given, in the order of a mesh (a B7 brick as a hexahedron with a repeated node), field data with the groups numbered from one in the order of the file and with dimension 3 or 2, and for each cell the number of its group, zero for bodies without groups. It is false when a zone is in no group while another is (the file is refused), when a blank line stands in the middle of a text file (what follows is silently dropped), and when a group of faces follows the table of a group of zones without a line between (refused).", "quantifier": "all text and binary files of this form: all numberings, orders, remarks, numbers of gridpoints, zones, faces and groups, all spellings of numbers", "why_tests_cant": "The tests read files written by toughio itself, numbered from one in order, and two sample files; the numberings, orders and groups of other programs are unbounded in number.", "anchors": ["toughio/_mesh/flac3d/_flac3d.py: read, read_buffer, _read_point_ascii, _read_cell_ascii, _read_cell_group_ascii, _read_table, _read_point_binary, _read_cell_binary, _read_cell_group_binary, _update_cells, _update_field_data, _update_slots"]}
{"id": "C85", "title": "The order of the blocks of an input file does not matter", "statement": "A file written by toughio.write_input is a title, the ROCKS block, other blocks and ENDCY. When the other blocks are put in any order that keeps ELEME before COORD, toughio.read_input gives the same parameters as for the original file: the same entries at the top, the same entries in the dictionaries in it and in the dictionaries in these, whatever the order of insertion. It is false for COORD before ELEME and for FLAC or INDOM before ROCKS (KeyError), and any block before ROCKS is also taken as lines of the title.", "quantifier": "all parameters for which the round trip of C22 holds, all subsets of the blocks, all permutations of them, all label lengths", "why_tests_cant": "Tests read the files written by the package, in its one order; the permutations of up to 21 blocks cannot be enumerated, and blocks that update the same entry (RPCAP and PARAM, FLAC and INDOM) could depend on the order.", "anchors": ["toughio/_io/input/tough/_read.py: read_buffer, _read_rpcap, _read_param, _read_flac, _read_indom, _read_eleme, _read_coord", "toughio/_io/input/tough/_write.py: write_buffer"]}
{"id": "C86", "title": "Blanks at the ends of the lines of an input file do not matter", "statement": "toughio.read_input on a TOUGH input file gives the same parameters after spaces or tabs are added at the ends of any lines (lines padded to a fixed length, as Fortran programs do). After blanks at the ends of lines are removed or changed in any way, the file is read as the same parameters or refused with TypeError, never read as something else. That it is always read is false: a file written by toughio itself, after an editor has removed the blanks at the ends of lines, is refused with TypeError when the first line of PARAM does not reach the columns of the extra options.", "quantifier": "all texts that read_input reads (not only those written by the package), all changes of the blanks at the ends of all lines, all label lengths", "why_tests_cant": "Tests read a few files with fixed lines; the property is about all files with all contents, with a change in every line.", "anchors": ["toughio/_io/input/tough/_read.py: read, read_buffer and all _read_ functions", "toughio/_io/input/tough/_helpers.py: read_record"]}
{"id": "C87", "title": "Remarks between the blocks of an input file, and text after its end, do not matter", "statement": "Take a TOUGH input file written by toughio.write_input. Put remarks and blank lines after the ROCKS block and after any of the other blocks, and any text after the ENDCY line; the blocks may also be put in another order (ELEME before COORD). toughio.read_input reads the same parameters as from the file as written. A remark is any number of lines that do not begin with the name of a block, the first of which is blank or does not begin like a number. Without these two conditions it is false: a remark that begins with the name of a block opens the block (STARTING sets start, TIMES is refused), a number on a line of its own after PARAM is taken for an initial condition, and a remark inside a block is read as a record.", "quantifier": "all parameters that can be written, all remarks, any number of them, after all blocks, all texts after the end, all label lengths", "why_tests_cant": "Tests read a few files with fixed remarks; the property is about all contents with all remarks at every place between blocks, among them those read ahead by PARAM and DIFFU.", "anchors": ["toughio/_io/input/tough/_read.py: read_buffer, _read_param, _read_diffu", "toughio/_io/input/tough/_helpers.py: read_record, str2float"]}
{"id": "C88", "title": "The order in which the entries of the parameters were given does not change the written file", "statement": "Build the parameters twice, with the same keys and values but with the entries put into the dictionaries in another order: those of the parameters themselves, of options, extra_options, more_options, selections and its integers, solver, flac, default and output, of each rock, generator, element, connection and initial condition, and of the models (relative permeability, capillarity, permeability, pore pressure) of a rock or of default. toughio.write_input writes the same file, character for character, or raises the same exception. The order of the rocks, generators, elements, connections, initial conditions and output variables themselves is not covered and does matter: equal parameters that list them in another order give another file.", "quantifier": "all parameters, valid or not, all orders of the entries of these dictionaries at all levels, all choices of block", "why_tests_cant": "Tests write a few dictionaries with their keys in one fixed order; the property is about all pairs of orders at every level at once, with values of any type and with every exception.", "anchors": ["toughio/_io/input/tough/_write.py: write, write_buffer and all _write_ functions", "toughio/_io/input/tough/_helpers.py: check_parameters"]}
{"id": "C89", "title": "Entries of the parameters with unknown names do not change the written file", "statement": "Add entries with names toughio does not know (a misspelt name, a note, any value) to the parameters, to options, flac, default, or to any rock, generator, element, connection or initial condition, or to the models of a rock or of default; or to solver, selections or output when they have known entries already. toughio.write_input writes the same file, character for character, or raises the same exception (it logs a warning). Elsewhere it is false: an unknown entry alone in output adds an empty OUTPU block, alone in selections or solver it raises KeyError, and beside the numbered entries of extra_options or more_options TypeError.", "quantifier": "all parameters, valid or not, all unknown names and all values, any number of them at all these levels, all choices of block", "why_tests_cant": "Tests write a few dictionaries of known names; the property is about all names that are not known, all values and all places at once, and that no path of the writer reads them.", "anchors": ["toughio/_io/input/tough/_write.py: write, write_buffer and all _write_ functions", "toughio/_io/input/tough/_helpers.py: check_parameters, dtypes"]}
{"id": "C90", "title": "Lists, tuples and arrays with the same contents give the same written file", "statement": "In the parameters given to toughio.write_input, replace any list by a tuple or a numpy array with the same contents, and any int by a numpy integer, at any level (title, times, histories, t_steps, permeabilities, initial conditions, parameters of models, selections, generators, centers, nodal distances, output variables, ...). The same file is written, character for character, or the same exception is raised. Exceptions: rocks_order and the materials of elements; arrays for values that the writer tests for being true, such as diffusion. There it is false: diffusion as an array raises ValueError when MULTI is written, rocks_order as a tuple that does not list all rocks raises AttributeError, and a numpy integer as a material raises ValueError.", "quantifier": "all parameters, valid or not, all sequences and integers in them, nested to any depth, all choices of block", "why_tests_cant": "Tests use one kind for each entry; the property is about all combinations of kinds over all entries and their contents, and about the paths that raise.", "anchors": ["toughio/_io/input/tough/_write.py: write, write_buffer and all _write_ functions", "toughio/_io/input/tough/_helpers.py: check_parameters, write_record", "toughio/_io/_common.py: to_str"]}
{"id": "C91", "title": "Entries that have their default values may be left out of the parameters", "statement": "Spell out default values in the parameters given to toughio.write_input: None, False, empty text or empty dictionaries for entries of the parameters themselves, None for options, numbered options, generators and connections, the default preconditioners and tolerances of solver, the empty material of an element, the five and four None of an initial condition, and so on, in any number and at any place. The same file is written, character for character, as without them, or the same exception is raised. Exceptions: more_options, solver and output must have another entry. There it is false: default values alone in more_options or output add a block, alone in solver they raise KeyError; and None is not the default of the entries that are dictionaries (options, rocks: AttributeError).", "quantifier": "all parameters, valid or not, all sets of entries with default values at all these levels, all choices of block", "why_tests_cant": "Tests give each entry a value or leave all out; the property is about all subsets of default entries, in all dictionaries at once, beside all other contents, valid or not.", "anchors": ["toughio/_io/input/tough/_common.py", "toughio/_io/input/tough/_write.py: write, write_buffer and all _write_ functions", "toughio/_io/input/tough/_helpers.py: check_parameters"]}
{"id": "C92", "title": "Values that a rock inherits may be left out of it", "statement": "A rock given to toughio.write_input inherits the entries of default that it does not have, and what default does not have it takes from the documented default values. Repeat inherited values in any rocks, and default values in default, in any number and at any place, initial_condition, relative_permeability and capillarity of rocks excepted: the same file is written, character for character, in all its blocks (ROCKS, FLAC, RPCAP, PARAM, ...), or the same exception is raised. For the three exceptions it is false: default gives them for the whole file, and repeated in a rock they add records. None in a rock is not the same as absent: it hides the value of default.", "quantifier": "all parameters, valid or not, all sets of inherited values repeated in all rocks and of default values in default, all choices of block", "why_tests_cant": "Tests compare a few rocks; the property is about all subsets of inherited entries in all rocks at once, beside all other contents.", "anchors": ["toughio/_io/input/tough/_write.py: write", "toughio/_io/input/tough/_write.py: _write_rocks, _write_flac, _write_rpcap, _write_param, _write_indom", "toughio/_io/input/tough/_common.py: default"]}
{"id": "C93", "title": "With elements_order given, the order of the dictionary of elements does not matter", "statement": "Give elements_order (connections_order, initial_conditions_order) to toughio.write_input and list the elements (connections, initial conditions) in any order in their dictionary: the same file is written, character for character, in the blocks ELEME, COORD, CONNE and INCON and all others, and a file is written for the one order if and only if it is written for the other. Without elements_order the order of the dictionary is that of the file. An element left out of elements_order is silently left out of the file while the connections to it are still written. When several records are wrong, which exception is raised depends on the order.", "quantifier": "all parameters, all permutations of the three tables, all values of the order entries (of any type but None), all choices of block", "why_tests_cant": "Tests use one order; the property is about all permutations of tables of any size, with any order lists, complete or not, valid or not.", "anchors": ["toughio/_io/input/tough/_write.py: _write_eleme, _write_coord, _write_conne, _write_incon", "toughio/_io/input/tough/_helpers.py: check_parameters"]}
{"id": "C94", "title": "With a complete rocks_order, the order of the dictionary of rocks does not matter", "statement": "Give toughio.write_input a list rocks_order that names every rock, and list the rocks in any order in their dictionary: the same file is written, character for character, in the blocks ROCKS, FLAC and INDOM and all others, and a file is written for the one order if and only if it is written for the other (the rocks are dictionaries, their initial conditions sequences; all else may be wrong). It is false in other cases: rocks that a list does not name follow in the order of the dictionary, a tuple that does not name all raises AttributeError, and with an initial condition that is not a sequence the order decides whether block='mesh' is written or raises TypeError.", "quantifier": "all parameters, all permutations of the rocks, all lists that name them all (and possibly others), all choices of block", "why_tests_cant": "Tests use one order; the property is about all permutations, through three blocks that work out the order anew.", "anchors": ["toughio/_io/input/tough/_write.py: write_buffer, _write_rocks, _write_flac, _write_indom", "toughio/_io/input/tough/_helpers.py: check_parameters"]}
{"id": "C95", "title": "An entry of the parameters changes nothing but its own block", "statement": "Take two dictionaries of parameters that agree in all entries but one, which is any of flac, solver, start, options, extra_options, selections, more_options, times, element_history, connection_history, generator_history, generators, output, coordinates, connections, connections_order, initial_conditions, initial_conditions_order and nover. When toughio.write_input writes both, the two files are the same but for one stretch of text, and in each file that stretch is empty or begins with the keyword of the entry's own block (FLAC, SOLVR, START, PARAM, PARAM, SELEC, MOMOP, TIMES, FOFT, COFT, GOFT, GENER, OUTPU, COORD, CONNE, CONNE, INCON, INCON, NOVER). So setting, say, connections never changes what is written for ROCKS, MULTI or GENER. It is false for diffusion: besides DIFFU it changes the last number of MULTI. That one of the two calls may raise an exception is not excluded.", "quantifier": "all pairs of parameters that agree but for one of the 19 entries, all values of that entry, all choices of block", "why_tests_cant": "Tests write a few files; independence is about all pairs of parameters, and the writer reads the entries at many places and works out from several of them which blocks to write.", "anchors": ["toughio/_io/input/tough/_write.py: write_buffer, _write_multi, _write_diffu"]}
