{
 "claims": [
  {
   "property": "C01",
   "status": "proved",
   "theorems": [
    "C01_record_roundtrip",
    "C01_layouts"
   ],
   "note": "Any layout and any list of values that fit; the package's tables are the documented layouts."
  },
  {
   "property": "C02",
   "status": "proved",
   "theorems": [
    "C02_float_accuracy"
   ],
   "note": "For magnitudes 0 or 10^-99..10^99 and up to 13 decimals, in any position of any record."
  },
  {
   "property": "C03",
   "status": "proved",
   "theorems": [
    "C03_stable_text"
   ],
   "note": "Any number of read/write cycles of any record of at most 80 columns."
  },
  {
   "property": "C04",
   "status": "proved",
   "theorems": [
    "C04_fits_iff",
    "C04_refuted",
    "C04_neighbour_refuted"
   ],
   "note": "Exact boundary, and the file-level consequences of a negative number in a 10.4e column (finding)."
  },
  {
   "property": "C05",
   "status": "proved",
   "theorems": [
    "C05_rocks",
    "C05_tuple_refuted"
   ],
   "note": "Block read back whatever follows; finding: an incomplete rocks_order tuple is an AttributeError."
  },
  {
   "property": "C06",
   "status": "proved",
   "theorems": [
    "C06_rpcap"
   ],
   "note": ""
  },
  {
   "property": "C07",
   "status": "proved",
   "theorems": [
    "C07_flac",
    "C07_refuted"
   ],
   "note": "Finding: the creep flag comes back as an integer, so what was read cannot be written again."
  },
  {
   "property": "C08",
   "status": "proved",
   "theorems": [
    "C08_multi",
    "C08_solvr",
    "C08_flags",
    "C08_refuted"
   ],
   "note": "Findings: a solver without \"method\" is a KeyError; start=False is lost by a read/write cycle."
  },
  {
   "property": "C09",
   "status": "proved",
   "theorems": [
    "C09_param",
    "C09_refuted"
   ],
   "note": "Findings: absent time steps change at each cycle; a two-digit option shifts the others; a ninth initial condition is dropped."
  },
  {
   "property": "C10",
   "status": "proved",
   "theorems": [
    "C10_selec",
    "C10_refuted"
   ],
   "note": "Findings: selections read without floats cannot be written again; without a first integer the file cannot be read."
  },
  {
   "property": "C11",
   "status": "proved",
   "theorems": [
    "C11_indom",
    "C11_refuted"
   ],
   "note": "Findings: a rock with more than 4 values after one with fewer, or a name such as \"1-100\", makes the file unreadable."
  },
  {
   "property": "C12",
   "status": "proved",
   "theorems": [
    "C12_momop"
   ],
   "note": ""
  },
  {
   "property": "C13",
   "status": "proved",
   "theorems": [
    "C13_times"
   ],
   "note": ""
  },
  {
   "property": "C14",
   "status": "proved",
   "theorems": [
    "C14_histories",
    "C14_refuted"
   ],
   "note": "Finding: labels longer than 5 characters (10 for COFT) are cut."
  },
  {
   "property": "C15",
   "status": "proved",
   "theorems": [
    "C15_gener",
    "C15_refuted"
   ],
   "note": "Findings: enthalpies given for some sources of an element only are lost or make the file unreadable; a source name starting with a digit misleads the guess of the label length; a single time is dropped."
  },
  {
   "property": "C16",
   "status": "proved",
   "theorems": [
    "C16_diffu",
    "C16_array_refuted"
   ],
   "note": "Finding: a table of several rows given as an array is a ValueError in the MULTI block."
  },
  {
   "property": "C17",
   "status": "proved",
   "theorems": [
    "C17_outpu",
    "C17_refuted"
   ],
   "note": "Findings: an output format without variables loses the next block; names that differ by case only are merged."
  },
  {
   "property": "C18",
   "status": "proved",
   "theorems": [
    "C18_eleme",
    "C18_coord",
    "C18_refuted"
   ],
   "note": "Findings: no material makes the block unreadable; a material made of digits comes back as a number; a label with a non-digit from the sixth character on, or a full NSEQ column, misleads the guess of the label length."
  },
  {
   "property": "C19",
   "status": "proved",
   "theorems": [
    "C19_conne",
    "C19_refuted"
   ],
   "note": "Findings: a second label starting with a digit misleads the guess of the label length; absent NADD comes back as two Nones."
  },
  {
   "property": "C20",
   "status": "proved",
   "theorems": [
    "C20_incon",
    "C20_refuted"
   ],
   "note": "Findings: an element with more than four variables after one with at most four cannot be read; a label of digits with a blank porosity is taken for numbers; the ninth variable is dropped."
  },
  {
   "property": "C21",
   "status": "proved",
   "theorems": [
    "C21_ends",
    "C21_refuses",
    "C21_title",
    "C21_refuted"
   ],
   "note": "Finding: a file in which no line starts a block after the title is read for ever."
  },
  {
   "property": "C22",
   "status": "proved",
   "theorems": [
    "C22_file",
    "C22_entries",
    "C22_completed",
    "C22_refuted"
   ],
   "note": "The well-formedness conditions are those of the blocks (C05-C20)."
  },
  {
   "property": "C23",
   "status": "proved",
   "theorems": [
    "C23_parts",
    "C23_unknown",
    "C23_gener",
    "C23_mesh",
    "C23_incon",
    "C23_refuted"
   ],
   "note": "Finding: a selection without content gives an empty file, which read_input reads for ever."
  },
  {
   "property": "C24",
   "status": "proved",
   "theorems": [
    "C24_untouched",
    "C24_raises",
    "C24_written",
    "C24_refuted"
   ],
   "note": "Finding: the JSON writer truncates the file before serialising."
  },
  {
   "property": "C25",
   "status": "proved",
   "theorems": [
    "C25_checked",
    "C25_top",
    "C25_block",
    "C25_named",
    "C25_refuted"
   ],
   "note": "Findings: rocks or defaults that are not dictionaries are an AttributeError; the elements of a list are not checked."
  },
  {
   "property": "C26",
   "status": "proved",
   "theorems": [
    "C26_json",
    "C26_refuted"
   ],
   "note": "The JSON text itself (library json) is not modelled. Findings: selections without \"integers\" cannot be read back; keys with the same text are merged; a name None comes back as the text null."
  },
  {
   "property": "C27",
   "status": "proved",
   "theorems": [
    "C27_length",
    "C27_exact",
    "C27_refuted"
   ],
   "note": "Findings: a digit after the label, or a letter after its fifth character, misleads the guess."
  },
  {
   "property": "C28",
   "status": "proved",
   "theorems": [
    "C28_labels",
    "C28_full",
    "C28_auto",
    "C28_auto_full",
    "C28_stable",
    "C28_recognised",
    "C28_short_refuted",
    "C28_tiny_refuted",
    "C28_auto_stable_refuted"
   ],
   "note": "Findings: labels of three characters come out with four; shorter ones are a TypeError; crossing 3 185 000 cells renames every cell."
  },
  {
   "property": "C29",
   "status": "proved",
   "theorems": [
    "C29_read",
    "C29_write",
    "C29_explicit",
    "C29_refused",
    "C29_missing",
    "C29_output",
    "C29_output_explicit",
    "C29_mesh",
    "C29_case",
    "C29_refuted"
   ],
   "note": "Findings: a registered extension with a capital letter is never used; a registered format cannot be named explicitly for input files."
  },
  {
   "property": "C30",
   "status": "proved",
   "theorems": [
    "C30_reorder",
    "C30_refused",
    "C30_refuted"
   ],
   "note": "Finding: a list naming a label twice is accepted and the data of the label left out are lost."
  },
  {
   "property": "C31",
   "status": "proved",
   "theorems": [
    "C31_csv",
    "C31_refuted"
   ],
   "note": "Findings: outputs without rows lose their columns; columns the last output does not have are dropped."
  },
  {
   "property": "C32",
   "status": "proved",
   "theorems": [
    "C32_petrasim",
    "C32_refuted"
   ],
   "note": "Findings: outputs whose times agree to 13 digits become one; outputs without columns lose their rows."
  },
  {
   "property": "C33",
   "status": "proved",
   "theorems": [
    "C33_csv",
    "C33_petrasim",
    "C33_tecplot",
    "C33_refuted"
   ],
   "note": "Finding: an equal sign in a column name makes CSV and PetraSim files look like Tecplot."
  },
  {
   "property": "C34",
   "status": "proved",
   "theorems": [
    "C34_listing",
    "C34_refuted",
    "C34_rows_refuted"
   ],
   "note": "Findings: an explicit label length makes every listing unreadable; rows of elements called ELEM... are skipped; adjacent numbers become NaN; an unclosed table ends in StopIteration."
  },
  {
   "property": "C35",
   "status": "proved",
   "theorems": [
    "C35_merge",
    "C35_directory",
    "C35_refuses",
    "C35_all_or_nothing",
    "C35_no_end_refuted",
    "C35_glued_refuted"
   ],
   "note": "Findings: without an end line the mesh is inserted before the last line; a MESH or INCON without final newline swallows the end line."
  },
  {
   "property": "C36",
   "status": "proved",
   "theorems": [
    "C36_copy",
    "C36_reset",
    "C36_touches",
    "C36_refused_refuted",
    "C36_in_place_refuted"
   ],
   "note": "Findings: a refused SAVE has already emptied the output file; converting in place empties the file."
  },
  {
   "property": "C37",
   "status": "proved",
   "theorems": [
    "C37_export",
    "C37_mirror",
    "C37_right",
    "C37_points",
    "C37_no_points",
    "C37_layers_refuted",
    "C37_columns_refuted"
   ],
   "note": "Findings: with two layers or more the data are upside down; with two rows in the default order they are in other columns. Exact arithmetic."
  },
  {
   "property": "C38",
   "status": "proved",
   "theorems": [
    "C38_split",
    "C38_split_refused",
    "C38_layouts"
   ],
   "note": "Also: a mesh without blocks is outside (one empty piece)."
  },
  {
   "property": "C39",
   "status": "proved",
   "theorems": [
    "C39_connections",
    "C39_total",
    "C39_symmetric"
   ],
   "note": "Nodes shared by three or more cell faces count as no interface."
  },
  {
   "property": "C40",
   "status": "proved",
   "theorems": [
    "C40_grid3",
    "C40_grid2",
    "C40_ranks"
   ],
   "note": "Grids without any cell are not modelled."
  },
  {
   "property": "C41",
   "status": "proved",
   "theorems": [
    "C41_extrude",
    "C41_total",
    "C41_extrude_refuted"
   ],
   "note": "Finding: blocks that are neither triangles nor quads disappear, their cell data do not."
  },
  {
   "property": "C42",
   "status": "proved",
   "theorems": [
    "C42_prune",
    "C42_again",
    "C42_total",
    "C42_blocks_refuted"
   ],
   "note": "Finding: equal cells in different blocks of the same type remain."
  },
  {
   "property": "C43",
   "status": "proved",
   "theorems": [
    "C43_materials",
    "C43_refused",
    "C43_reused_refuted",
    "C43_one_cell_refuted"
   ],
   "note": "Findings: the number of an unused material is reused, so that two materials become one; [True] in a one-cell mesh is an index."
  },
  {
   "property": "C44",
   "status": "proved",
   "theorems": [
    "C44_mesh_file",
    "C44_alone_refuted"
   ],
   "note": "Distances, areas and angles of interfaces are inputs. Finding: a mesh without interface cannot be written."
  },
  {
   "property": "C45",
   "status": "proved",
   "theorems": [
    "C45_selection",
    "C45_file",
    "C45_short_refuted"
   ],
   "note": "Finding: materials named with fewer than five characters are neither renamed nor moved."
  },
  {
   "property": "C46",
   "status": "proved",
   "theorems": [
    "C46_incon",
    "C46_negative_refuted"
   ],
   "note": "Finding: cells whose defined variables are all negative are left out."
  },
  {
   "property": "C47",
   "status": "proved",
   "theorems": [
    "C47_same_or_opposite",
    "C47_surfaces",
    "C47_right_handed",
    "C47_convention",
    "C47_coplanar_refuted",
    "C47_wedge_refuted",
    "C47_tiny_refuted"
   ],
   "note": "Exact arithmetic for the handedness; any arithmetic for the first theorem. Findings: wedges extruded upwards come back flipped; coplanar corners and underflow defeat the orientation test."
  },
  {
   "property": "C48",
   "status": "proved",
   "theorems": [
    "C48_round_trip"
   ],
   "note": "Files as produced by the model of the writer; ASCII text."
  },
  {
   "property": "C49",
   "status": "proved",
   "theorems": [
    "C49_groups",
    "C49_order_refuted",
    "C49_two_faces_refuted",
    "C49_blank_refuted",
    "C49_same_name_refuted"
   ],
   "note": "Integer materials, ASCII names. Findings: surfaces before solids, or cells that are neither, make the file unreadable; two surface groups make the text unreadable; names with blanks are cut; a name shared by solids and surfaces loses a number."
  },
  {
   "property": "C50",
   "status": "proved",
   "theorems": [
    "C50_round_trip",
    "C50_lines",
    "C50_turned",
    "C50_materials_refuted",
    "C50_comma_refuted",
    "C50_names_refuted",
    "C50_digits_refuted"
   ],
   "note": "For any printing of coordinates that reads back exactly. Findings: only the first array of materials survives, names are cut at commas and may collide, data keep 15 digits."
  },
  {
   "property": "C51",
   "status": "proved",
   "theorems": [
    "C51_near",
    "C51_near_total",
    "C51_box",
    "C51_box_total",
    "C51_flat_refuted",
    "C51_start_refuted"
   ],
   "note": "Exact arithmetic. Findings: a box length of zero is unbounded; a length without a start selects nothing."
  },
  {
   "property": "C52",
   "status": "proved",
   "theorems": [
    "C52_centres",
    "C52_recovers",
    "C52_refused",
    "C52_sizes_refuted",
    "C52_single_refuted"
   ],
   "note": "Findings: sizes may be zero or negative; a single coordinate gives an interval of size one not centred on it."
  },
  {
   "property": "C53",
   "status": "proved",
   "theorems": [
    "C53_rings",
    "C53_refused"
   ],
   "note": "Exact arithmetic, for any value of numpy.pi."
  },
  {
   "property": "C54",
   "status": "proved",
   "theorems": [
    "C54_steps",
    "C54_blocks",
    "C54_defaults"
   ],
   "note": "What is handed to the XDMF writer of meshio; any argsort."
  },
  {
   "property": "C55",
   "status": "proved",
   "theorems": [
    "C55_points",
    "C55_weights",
    "C55_points_total",
    "C55_cells",
    "C55_cells_total",
    "C55_orphan_refuted"
   ],
   "note": "Exact arithmetic, scalar data. Finding: a point belonging to no cell makes the interpolation fail."
  },
  {
   "property": "C56",
   "status": "proved",
   "theorems": [
    "C56_rounded",
    "C56_exact",
    "C56_rounding_refuted",
    "C56_pickens",
    "C56_mualem",
    "C56_mualem_refuted",
    "C56_verma",
    "C56_domain",
    "C56_array"
   ],
   "note": "Over the reals, exact or with every operation rounded monotonically; the rounding refutation computes in binary64."
  },
  {
   "property": "C57",
   "status": "proved",
   "theorems": [
    "C57_rounded",
    "C57_exact",
    "C57_pickens",
    "C57_mualem",
    "C57_verma",
    "C57_default",
    "C57_verma_refuted"
   ],
   "note": "Over the reals, exact or rounded."
  },
  {
   "property": "C58",
   "status": "proved",
   "theorems": [
    "C58_capillarity",
    "C58_permeability",
    "C58_refuted"
   ],
   "note": "Finding: Fatt-Klikoff and van Genuchten-Mualem share identifier 7."
  },
  {
   "property": "C59",
   "status": "proved",
   "theorems": [
    "C59_linear",
    "C59_trust",
    "C59_trust_rising",
    "C59_genuchten",
    "C59_pickens",
    "C59_pickens_falls",
    "C59_pickens_refuted",
    "C59_milly",
    "C59_milly_refuted",
    "C59_milly_zero_refuted",
    "C59_genuchten_refuted",
    "C59_sign_refuted",
    "C59_trust_sign_refuted"
   ],
   "note": "Over the reals, exact (TRUST also rounded). Findings: see the refutations."
  },
  {
   "property": "C60",
   "status": "proved",
   "theorems": [
    "C60_shape",
    "C60_valid",
    "C60_valid_cp",
    "C60_refuted",
    "C60_call_refuted"
   ],
   "note": "Finding: the parameters setters bypass the constructors' checks."
  },
  {
   "property": "C61",
   "status": "proved",
   "theorems": [
    "C61_volumes",
    "C61_edges",
    "C61_hexahedron",
    "C61_wedge",
    "C61_pyramid"
   ],
   "note": "Exact arithmetic."
  },
  {
   "property": "C62",
   "status": "proved",
   "theorems": [
    "C62_tecplot",
    "C62_refuted"
   ],
   "note": "Findings: negative numbers below 1e-99 and names of 18 characters run into their neighbours."
  },
  {
   "property": "C63",
   "status": "proved",
   "theorems": [
    "C63_round_trip",
    "C63_negative_refuted",
    "C63_first_block_refuted",
    "C63_empty_block_refuted",
    "C63_same_name_refuted",
    "C63_blank_refuted",
    "C63_equal_refuted",
    "C63_short_refuted"
   ],
   "note": "Findings: a negative first x coordinate, a flat block before solid ones, an empty block, equal names, blanks in names, KEY=VALUE at the end of a zone, a file cut short."
  },
  {
   "property": "C64",
   "status": "proved",
   "theorems": [
    "C64_save",
    "C64_refuses",
    "C64_refuted",
    "C64_array_refuted"
   ],
   "note": "Findings: a missing porosity is a KeyError, user values on some elements only an IndexError, an order given as an array a ValueError."
  },
  {
   "property": "C66",
   "status": "proved",
   "theorems": [
    "C66_csv",
    "C66_formats",
    "C66_split",
    "C66_missing",
    "C66_flows",
    "C66_split_refuted",
    "C66_length_refuted",
    "C66_order_refuted"
   ],
   "note": "Findings: --split ignores the format, a label length makes every extraction fail, the coordinates of the last time step serve for all. The text of Tecplot files is covered by C62."
  },
  {
   "property": "C65",
   "status": "proved",
   "theorems": [
    "C65_elements",
    "C65_refuses",
    "C65_flows",
    "C65_orientation",
    "C65_unknown",
    "C65_step",
    "C65_no_step",
    "C65_changed_refuted",
    "C65_unlabelled_refuted"
   ],
   "note": "Exact arithmetic for flows. Findings: the output given is reordered in place; Tecplot outputs (without labels) are a TypeError."
  },
  {
   "property": "C67",
   "status": "proved",
   "theorems": [
    "C67_areas",
    "C67_normals",
    "C67_exist",
    "C67_outward",
    "C67_sides",
    "C67_sides_refuted"
   ],
   "note": "Exact real arithmetic. Finding: the area of a warped quad depends on its first corner."
  },
  {
   "property": "C68",
   "status": "proved",
   "theorems": [
    "C68_measures",
    "C68_exist",
    "C68_between",
    "C68_shorter"
   ],
   "note": "Exact real arithmetic; text of the records in C45."
  },
  {
   "property": "C69",
   "status": "proved",
   "theorems": [
    "C69_quality",
    "C69_perfect",
    "C69_exist",
    "C69_alone",
    "C69_alone_refuted"
   ],
   "note": "Exact real arithmetic. Finding: one cell without a neighbour makes it fail."
  },
  {
   "property": "C70",
   "status": "proved",
   "theorems": [
    "C70_read",
    "C70_empty",
    "C70_comma_refuted"
   ],
   "note": "Finding: a comma in a quoted name cuts it in two and the last column is lost."
  },
  {
   "property": "C71",
   "status": "proved",
   "theorems": [
    "C71_mesh",
    "C71_file",
    "C71_labels",
    "C71_names_refuted",
    "C71_faces_refuted"
   ],
   "note": "Findings: names of more than five characters are cut and may become equal; of two faces between the same cells only one is read."
  },
  {
   "property": "C72",
   "status": "proved",
   "theorems": [
    "C72_incon",
    "C72_blank_refuted",
    "C72_many_refuted"
   ],
   "note": "Findings: with five or more variables, all after the fourth undefined in a cell, the cells after it are lost when the file is read; variables after the eighth are dropped."
  },
  {
   "property": "C73",
   "status": "proved",
   "theorems": [
    "C73_back",
    "C73_grid",
    "C73_vtk9_refuted",
    "C73_empty_refuted",
    "C73_blank_refuted",
    "C73_names_refuted"
   ],
   "note": "VTK 8. Findings: with VTK 9 cells lose nodes; an empty block is an error or shifts the cells after it; data names equal up to blank and underscore collide; names of materials are lost."
  },
  {
   "property": "C74",
   "status": "proved",
   "theorems": [
    "C74_new",
    "C74_old",
    "C74_two_materials_refuted",
    "C74_names_refuted",
    "C74_argument_refuted"
   ],
   "note": "At most one array of materials. Findings: two material arrays, one is lost; names of other dimensions only and no material: ValueError; the argument is changed by the call."
  },
  {
   "property": "C75",
   "status": "proved",
   "theorems": [
    "C75_series",
    "C75_one",
    "C75_refuses",
    "C75_named",
    "C75_own_data_refuted"
   ],
   "note": "The mesh is taken as read and the VTK, VTU, XDMF writers of meshio are outside: the theorems speak of what is handed to them. Finding: the cell data of the mesh stay (cell_dada)."
  },
  {
   "property": "C76",
   "status": "proved",
   "theorems": [
    "C76_consistent",
    "C76_follow",
    "C76_prune",
    "C76_to_cells",
    "C76_extrude",
    "C76_cell_data",
    "C76_point_data",
    "C76_stored",
    "C76_materials",
    "C76_no_materials",
    "C76_extrude_refuted"
   ],
   "note": "Data of single exact numbers; arrays are values (a numpy array shared between two meshes is not modelled). A failing call leaves the mesh, which is so in the code for meshes which hold together."
  },
  {
   "property": "C77",
   "status": "proved",
   "theorems": [
    "C77_merged",
    "C77_entries",
    "C77_as_mesh",
    "C77_end_refuted"
   ],
   "note": "The composition of C22, C35, C71 and C72 in one file; conditions as there."
  },
  {
   "property": "C78",
   "status": "proved",
   "theorems": [
    "C78_converted",
    "C78_restart"
   ],
   "note": "Composition of C20, C36, C64 and C77; what save2incon makes is shown to be again a SAVE file of the same entries."
  },
  {
   "property": "C79",
   "status": "proved",
   "theorems": [
    "C79_again",
    "C79_stable",
    "C79_error_refuted",
    "C79_blocks_refuted",
    "C79_values_refuted"
   ],
   "note": "Sufficient conditions (Spec/Again.v); each of those on FLAC, SELEC, GENER, START, title, MULTI, MOMOP, time steps, models and centres is shown to be needed by a witness."
  },
  {
   "property": "C80",
   "status": "proved",
   "theorems": [
    "C80_triangulated",
    "C80_triangulated_series",
    "C80_voxels",
    "C80_voxels_series",
    "C80_refuses",
    "C80_tecplot",
    "C80_plane_refuted",
    "C80_order_refuted",
    "C80_layers_refuted"
   ],
   "note": "Coordinates are the exact values of the columns; differences and sums of coordinates are not rounded. The triangulation of scipy is any function of the points."
  },
  {
   "property": "C81",
   "status": "proved",
   "theorems": [
    "C81_csv",
    "C81_table",
    "C81_petrasim",
    "C81_shape",
    "C81_ends",
    "C81_tecplot_refuted",
    "C81_blank_refuted"
   ],
   "note": "Ragged tables, for which the result depends on the version of numpy, are excluded (Unmodelled). C81_shape and C81_ends leave out SAVE files."
  },
  {
   "property": "C82",
   "status": "proved",
   "theorems": [
    "C82_mesh",
    "C82_last_refuted",
    "C82_names_refuted"
   ],
   "note": "One zone; the first number of the data is not negative (C63_negative_refuted); the last value of the zone stands apart from its key (C82_last_refuted)."
  },
  {
   "property": "C83",
   "status": "proved",
   "theorems": [
    "C83_read",
    "C83_material_refuted"
   ],
   "note": "Points of one dimension; names of arrays distinct after blanks are replaced (C50_names_refuted), none of them a name of materials for the data of the cells (C83_material_refuted)."
  },
  {
   "property": "C84",
   "status": "proved",
   "theorems": [
    "C84_text",
    "C84_binary",
    "C84_ungrouped_refuted",
    "C84_blank_refuted",
    "C84_table_refuted"
   ],
   "note": "Distinct names of groups, one slot for zones and one for faces; if zones have groups each is in exactly one, likewise faces; names of groups in binary files are ASCII."
  },
  {
   "property": "C85",
   "status": "proved",
   "theorems": [
    "C85_order",
    "C85_refuted"
   ],
   "note": "Files written by the package; TOUGH lets users order the blocks freely, the reader needs ROCKS first and ELEME before COORD."
  },
  {
   "property": "C86",
   "status": "proved",
   "theorems": [
    "C86_padded",
    "C86_trailing",
    "C86_refuted"
   ],
   "note": "Any text that is read; blanks are spaces, tabs and the newline of the last line."
  },
  {
   "property": "C87",
   "status": "proved",
   "theorems": [
    "C87_remarks",
    "C87_refuted"
   ],
   "note": "Blocks as written by the package; remarks after ROCKS and later (lines before ROCKS belong to the title)."
  },
  {
   "property": "C88",
   "status": "proved",
   "theorems": [
    "C88_any_order",
    "C88_refuted"
   ],
   "note": "The order of the records (rocks, generators, elements, connections, initial conditions) and of the output variables is kept; C88_refuted shows that it does matter."
  },
  {
   "property": "C89",
   "status": "proved",
   "theorems": [
    "C89_unknown",
    "C89_one_more",
    "C89_refuted"
   ],
   "note": "The warning that is logged is not modelled. Known names are those of the table of types at any level: a rock with an entry called title is not covered."
  },
  {
   "property": "C90",
   "status": "proved",
   "theorems": [
    "C90_kinds",
    "C90_refuted"
   ],
   "note": "The contents of an array are the values it holds: that numpy converts mixed contents, when the array is made, is outside the model. The labels in elements_order and the like are the same ones. A sequence as the value of an option number toughio does not know (str of it is written) is not modelled."
  },
  {
   "property": "C91",
   "status": "proved",
   "theorems": [
    "C91_top",
    "C91_inside",
    "C91_refuted"
   ],
   "note": "The center of elements is not covered; for rocks and the entry default see C92."
  },
  {
   "property": "C92",
   "status": "proved",
   "theorems": [
    "C92_inherited",
    "C92_refuted"
   ],
   "note": "Every dictionary is assumed to have each key once, as in Python."
  },
  {
   "property": "C93",
   "status": "proved",
   "theorems": [
    "C93_order",
    "C93_refuted"
   ],
   "note": "rocks_order is treated in C94."
  },
  {
   "property": "C94",
   "status": "proved",
   "theorems": [
    "C94_order",
    "C94_refuted"
   ],
   "note": ""
  },
  {
   "property": "C95",
   "status": "proved",
   "theorems": [
    "C95_own",
    "C95_refuted"
   ],
   "note": ""
  }
 ]
}