C01 | proved | C01_record_roundtrip, C01_layouts | Any layout and any list of values that fit; the package's tables are the documented layouts.
C02 | proved | C02_float_accuracy | For magnitudes 0 or 10^-99..10^99 and up to 13 decimals, in any position of any record.
C03 | proved | C03_stable_text | Any number of read/write cycles of any record of at most 80 columns.
C04 | proved | C04_fits_iff, C04_refuted, C04_neighbour_refuted | Exact boundary, and the file-level consequences of a negative number in a 10.4e column (finding).
C05 | proved | C05_rocks, C05_tuple_refuted | Block read back whatever follows; finding: an incomplete rocks_order tuple is an AttributeError.
C06 | proved | C06_rpcap | 
C07 | proved | C07_flac, C07_refuted | Finding: the creep flag comes back as an integer, so what was read cannot be written again.
C08 | proved | C08_multi, C08_solvr, C08_flags, C08_refuted | Findings: a solver without "method" is a KeyError; start=False is lost by a read/write cycle.
C09 | proved | C09_param, C09_refuted | Findings: absent time steps change at each cycle; a two-digit option shifts the others; a ninth initial condition is dropped.
C10 | proved | C10_selec, C10_refuted | Findings: selections read without floats cannot be written again; without a first integer the file cannot be read.
C11 | proved | C11_indom, C11_refuted | Findings: a rock with more than 4 values after one with fewer, or a name such as "1-100", makes the file unreadable.
C12 | proved | C12_momop | 
C13 | proved | C13_times | 
C14 | proved | C14_histories, C14_refuted | Finding: labels longer than 5 characters (10 for COFT) are cut.
C15 | proved | C15_gener, C15_refuted | Findings: enthalpies given for some sources of an element only are lost or make the file unreadable; a source name starting with a digit misleads the guess of the label length; a single time is dropped.
C16 | proved | C16_diffu, C16_array_refuted | Finding: a table of several rows given as an array is a ValueError in the MULTI block.
C17 | proved | C17_outpu, C17_refuted | Findings: an output format without variables loses the next block; names that differ by case only are merged.
C18 | proved | C18_eleme, C18_coord, C18_refuted | Findings: no material makes the block unreadable; a material made of digits comes back as a number; a label with a non-digit from the sixth character on, or a full NSEQ column, misleads the guess of the label length.
C19 | proved | C19_conne, C19_refuted | Findings: a second label starting with a digit misleads the guess of the label length; absent NADD comes back as two Nones.
C20 | proved | C20_incon, C20_refuted | Findings: an element with more than four variables after one with at most four cannot be read; a label of digits with a blank porosity is taken for numbers; the ninth variable is dropped.
C21 | proved | C21_ends, C21_refuses, C21_title, C21_refuted | Finding: a file in which no line starts a block after the title is read for ever.
C22 | proved | C22_file, C22_entries, C22_completed, C22_refuted | The well-formedness conditions are those of the blocks (C05-C20).
C23 | proved | C23_parts, C23_unknown, C23_gener, C23_mesh, C23_incon, C23_refuted | Finding: a selection without content gives an empty file, which read_input reads for ever.
C24 | proved | C24_untouched, C24_raises, C24_written, C24_refuted | Finding: the JSON writer truncates the file before serialising.
C25 | proved | C25_checked, C25_top, C25_block, C25_named, C25_refuted | Findings: rocks or defaults that are not dictionaries are an AttributeError; the elements of a list are not checked.
C26 | proved | C26_json, C26_refuted | The JSON text itself (library json) is not modelled. Findings: selections without "integers" cannot be read back; keys with the same text are merged; a name None comes back as the text null.
C27 | proved | C27_length, C27_exact, C27_refuted | Findings: a digit after the label, or a letter after its fifth character, misleads the guess.
C28 | proved | C28_labels, C28_full, C28_auto, C28_auto_full, C28_stable, C28_recognised, C28_short_refuted, C28_tiny_refuted, C28_auto_stable_refuted | Findings: labels of three characters come out with four; shorter ones are a TypeError; crossing 3 185 000 cells renames every cell.
C29 | proved | C29_read, C29_write, C29_explicit, C29_refused, C29_missing, C29_output, C29_output_explicit, C29_mesh, C29_case, C29_refuted | Findings: a registered extension with a capital letter is never used; a registered format cannot be named explicitly for input files.
C30 | proved | C30_reorder, C30_refused, C30_refuted | Finding: a list naming a label twice is accepted and the data of the label left out are lost.
C31 | proved | C31_csv, C31_refuted | Findings: outputs without rows lose their columns; columns the last output does not have are dropped.
C32 | proved | C32_petrasim, C32_refuted | Findings: outputs whose times agree to 13 digits become one; outputs without columns lose their rows.
C33 | proved | C33_csv, C33_petrasim, C33_tecplot, C33_refuted | Finding: an equal sign in a column name makes CSV and PetraSim files look like Tecplot.
C34 | proved | C34_listing, C34_refuted, C34_rows_refuted | Findings: an explicit label length makes every listing unreadable; rows of elements called ELEM... are skipped; adjacent numbers become NaN; an unclosed table ends in StopIteration.
C35 | proved | C35_merge, C35_directory, C35_refuses, C35_all_or_nothing, C35_no_end_refuted, C35_glued_refuted | Findings: without an end line the mesh is inserted before the last line; a MESH or INCON without final newline swallows the end line.
C36 | proved | C36_copy, C36_reset, C36_touches, C36_refused_refuted, C36_in_place_refuted | Findings: a refused SAVE has already emptied the output file; converting in place empties the file.
C37 | proved | C37_export, C37_mirror, C37_right, C37_points, C37_no_points, C37_layers_refuted, C37_columns_refuted | Findings: with two layers or more the data are upside down; with two rows in the default order they are in other columns. Exact arithmetic.
C38 | proved | C38_split, C38_split_refused, C38_layouts | Also: a mesh without blocks is outside (one empty piece).
C39 | proved | C39_connections, C39_total, C39_symmetric | Nodes shared by three or more cell faces count as no interface.
C40 | proved | C40_grid3, C40_grid2, C40_ranks | Grids without any cell are not modelled.
C41 | proved | C41_extrude, C41_total, C41_extrude_refuted | Finding: blocks that are neither triangles nor quads disappear, their cell data do not.
C42 | proved | C42_prune, C42_again, C42_total, C42_blocks_refuted | Finding: equal cells in different blocks of the same type remain.
C43 | proved | C43_materials, C43_refused, C43_reused_refuted, C43_one_cell_refuted | Findings: the number of an unused material is reused, so that two materials become one; [True] in a one-cell mesh is an index.
C44 | proved | C44_mesh_file, C44_alone_refuted | Distances, areas and angles of interfaces are inputs. Finding: a mesh without interface cannot be written.
C45 | proved | C45_selection, C45_file, C45_short_refuted | Finding: materials named with fewer than five characters are neither renamed nor moved.
C46 | proved | C46_incon, C46_negative_refuted | Finding: cells whose defined variables are all negative are left out.
C47 | proved | C47_same_or_opposite, C47_surfaces, C47_right_handed, C47_convention, C47_coplanar_refuted, C47_wedge_refuted, C47_tiny_refuted | Exact arithmetic for the handedness; any arithmetic for the first theorem. Findings: wedges extruded upwards come back flipped; coplanar corners and underflow defeat the orientation test.
C48 | proved | C48_round_trip | Files as produced by the model of the writer; ASCII text.
C49 | proved | C49_groups, C49_order_refuted, C49_two_faces_refuted, C49_blank_refuted, C49_same_name_refuted | Integer materials, ASCII names. Findings: surfaces before solids, or cells that are neither, make the file unreadable; two surface groups make the text unreadable; names with blanks are cut; a name shared by solids and surfaces loses a number.
C50 | proved | C50_round_trip, C50_lines, C50_turned, C50_materials_refuted, C50_comma_refuted, C50_names_refuted, C50_digits_refuted | For any printing of coordinates that reads back exactly. Findings: only the first array of materials survives, names are cut at commas and may collide, data keep 15 digits.
C51 | proved | C51_near, C51_near_total, C51_box, C51_box_total, C51_flat_refuted, C51_start_refuted | Exact arithmetic. Findings: a box length of zero is unbounded; a length without a start selects nothing.
C52 | proved | C52_centres, C52_recovers, C52_refused, C52_sizes_refuted, C52_single_refuted | Findings: sizes may be zero or negative; a single coordinate gives an interval of size one not centred on it.
C53 | proved | C53_rings, C53_refused | Exact arithmetic, for any value of numpy.pi.
C54 | proved | C54_steps, C54_blocks, C54_defaults | What is handed to the XDMF writer of meshio; any argsort.
C55 | proved | C55_points, C55_weights, C55_points_total, C55_cells, C55_cells_total, C55_orphan_refuted | Exact arithmetic, scalar data. Finding: a point belonging to no cell makes the interpolation fail.
C56 | proved | C56_rounded, C56_exact, C56_rounding_refuted, C56_pickens, C56_mualem, C56_mualem_refuted, C56_verma, C56_domain, C56_array | Over the reals, exact or with every operation rounded monotonically; the rounding refutation computes in binary64.
C57 | proved | C57_rounded, C57_exact, C57_pickens, C57_mualem, C57_verma, C57_default, C57_verma_refuted | Over the reals, exact or rounded.
C58 | proved | C58_capillarity, C58_permeability, C58_refuted | Finding: Fatt-Klikoff and van Genuchten-Mualem share identifier 7.
C59 | proved | C59_linear, C59_trust, C59_trust_rising, C59_genuchten, C59_pickens, C59_pickens_falls, C59_pickens_refuted, C59_milly, C59_milly_refuted, C59_milly_zero_refuted, C59_genuchten_refuted, C59_sign_refuted, C59_trust_sign_refuted | Over the reals, exact (TRUST also rounded). Findings: see the refutations.
C60 | proved | C60_shape, C60_valid, C60_valid_cp, C60_refuted, C60_call_refuted | Finding: the parameters setters bypass the constructors' checks.
C61 | proved | C61_volumes, C61_edges, C61_hexahedron, C61_wedge, C61_pyramid | Exact arithmetic.
C62 | proved | C62_tecplot, C62_refuted | Findings: negative numbers below 1e-99 and names of 18 characters run into their neighbours.
C63 | proved | C63_round_trip, C63_negative_refuted, C63_first_block_refuted, C63_empty_block_refuted, C63_same_name_refuted, C63_blank_refuted, C63_equal_refuted, C63_short_refuted | Findings: a negative first x coordinate, a flat block before solid ones, an empty block, equal names, blanks in names, KEY=VALUE at the end of a zone, a file cut short.
C64 | proved | C64_save, C64_refuses, C64_refuted, C64_array_refuted | Findings: a missing porosity is a KeyError, user values on some elements only an IndexError, an order given as an array a ValueError.
C66 | proved | C66_csv, C66_formats, C66_split, C66_missing, C66_flows, C66_split_refuted, C66_length_refuted, C66_order_refuted | Findings: --split ignores the format, a label length makes every extraction fail, the coordinates of the last time step serve for all. The text of Tecplot files is covered by C62.
C65 | proved | C65_elements, C65_refuses, C65_flows, C65_orientation, C65_unknown, C65_step, C65_no_step, C65_changed_refuted, C65_unlabelled_refuted | Exact arithmetic for flows. Findings: the output given is reordered in place; Tecplot outputs (without labels) are a TypeError.
C67 | proved | C67_areas, C67_normals, C67_exist, C67_outward, C67_sides, C67_sides_refuted | Exact real arithmetic. Finding: the area of a warped quad depends on its first corner.
C68 | proved | C68_measures, C68_exist, C68_between, C68_shorter | Exact real arithmetic; text of the records in C45.
C69 | proved | C69_quality, C69_perfect, C69_exist, C69_alone, C69_alone_refuted | Exact real arithmetic. Finding: one cell without a neighbour makes it fail.
C70 | proved | C70_read, C70_empty, C70_comma_refuted | Finding: a comma in a quoted name cuts it in two and the last column is lost.
C71 | proved | C71_mesh, C71_file, C71_labels, C71_names_refuted, C71_faces_refuted | Findings: names of more than five characters are cut and may become equal; of two faces between the same cells only one is read.
C72 | proved | C72_incon, C72_blank_refuted, C72_many_refuted | Findings: with five or more variables, all after the fourth undefined in a cell, the cells after it are lost when the file is read; variables after the eighth are dropped.
C73 | proved | C73_back, C73_grid, C73_vtk9_refuted, C73_empty_refuted, C73_blank_refuted, C73_names_refuted | VTK 8. Findings: with VTK 9 cells lose nodes; an empty block is an error or shifts the cells after it; data names equal up to blank and underscore collide; names of materials are lost.
C74 | proved | C74_new, C74_old, C74_two_materials_refuted, C74_names_refuted, C74_argument_refuted | At most one array of materials. Findings: two material arrays, one is lost; names of other dimensions only and no material: ValueError; the argument is changed by the call.
C75 | proved | C75_series, C75_one, C75_refuses, C75_named, C75_own_data_refuted | The mesh is taken as read and the VTK, VTU, XDMF writers of meshio are outside: the theorems speak of what is handed to them. Finding: the cell data of the mesh stay (cell_dada).
C76 | proved | C76_consistent, C76_follow, C76_prune, C76_to_cells, C76_extrude, C76_cell_data, C76_point_data, C76_stored, C76_materials, C76_no_materials, C76_extrude_refuted | Data of single exact numbers; arrays are values (a numpy array shared between two meshes is not modelled). A failing call leaves the mesh, which is so in the code for meshes which hold together.
C77 | proved | C77_merged, C77_entries, C77_as_mesh, C77_end_refuted | The composition of C22, C35, C71 and C72 in one file; conditions as there.
C78 | proved | C78_converted, C78_restart | Composition of C20, C36, C64 and C77; what save2incon makes is shown to be again a SAVE file of the same entries.
C79 | proved | C79_again, C79_stable, C79_error_refuted, C79_blocks_refuted, C79_values_refuted | Sufficient conditions (Spec/Again.v); each of those on FLAC, SELEC, GENER, START, title, MULTI, MOMOP, time steps, models and centres is shown to be needed by a witness.
C80 | proved | C80_triangulated, C80_triangulated_series, C80_voxels, C80_voxels_series, C80_refuses, C80_tecplot, C80_plane_refuted, C80_order_refuted, C80_layers_refuted | Coordinates are the exact values of the columns; differences and sums of coordinates are not rounded. The triangulation of scipy is any function of the points.
C81 | proved | C81_csv, C81_table, C81_petrasim, C81_shape, C81_ends, C81_tecplot_refuted, C81_blank_refuted | Ragged tables, for which the result depends on the version of numpy, are excluded (Unmodelled). C81_shape and C81_ends leave out SAVE files.
C82 | proved | C82_mesh, C82_last_refuted, C82_names_refuted | One zone; the first number of the data is not negative (C63_negative_refuted); the last value of the zone stands apart from its key (C82_last_refuted).
C83 | proved | C83_read, C83_material_refuted | Points of one dimension; names of arrays distinct after blanks are replaced (C50_names_refuted), none of them a name of materials for the data of the cells (C83_material_refuted).
C84 | proved | C84_text, C84_binary, C84_ungrouped_refuted, C84_blank_refuted, C84_table_refuted | Distinct names of groups, one slot for zones and one for faces; if zones have groups each is in exactly one, likewise faces; names of groups in binary files are ASCII.
C85 | proved | C85_order, C85_refuted | Files written by the package; TOUGH lets users order the blocks freely, the reader needs ROCKS first and ELEME before COORD.
C86 | proved | C86_padded, C86_trailing, C86_refuted | Any text that is read; blanks are spaces, tabs and the newline of the last line.
C87 | proved | C87_remarks, C87_refuted | Blocks as written by the package; remarks after ROCKS and later (lines before ROCKS belong to the title).
C88 | proved | C88_any_order, C88_refuted | The order of the records (rocks, generators, elements, connections, initial conditions) and of the output variables is kept; C88_refuted shows that it does matter.
C89 | proved | C89_unknown, C89_one_more, C89_refuted | The warning that is logged is not modelled. Known names are those of the table of types at any level: a rock with an entry called title is not covered.
C90 | proved | C90_kinds, C90_refuted | The contents of an array are the values it holds: that numpy converts mixed contents, when the array is made, is outside the model. The labels in elements_order and the like are the same ones. A sequence as the value of an option number toughio does not know (str of it is written) is not modelled.
C91 | proved | C91_top, C91_inside, C91_refuted | The center of elements is not covered; for rocks and the entry default see C92.
C92 | proved | C92_inherited, C92_refuted | Every dictionary is assumed to have each key once, as in Python.
C93 | proved | C93_order, C93_refuted | rocks_order is treated in C94.
C94 | proved | C94_order, C94_refuted | 
C95 | proved | C95_own, C95_refuted | 
