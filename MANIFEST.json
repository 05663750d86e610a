{
 "claims": [
  {
   "property": "C01",
   "status": "partial",
   "theorems": [
    "C01_wrap_keeps_words",
    "C01_long_first_word_refuted"
   ],
   "note": "Proved for all texts whose blank-free runs have at most 70 characters (the stated quantifier); refuted witness: beyond that bound words are cut."
  },
  {
   "property": "C02",
   "status": "proved",
   "theorems": [
    "C02_wrap_width_and_continuation"
   ],
   "note": ""
  },
  {
   "property": "C03",
   "status": "partial",
   "theorems": [
    "C03_wrap_terminates_refuted",
    "C03_divergence_characterised_partial"
   ],
   "note": "Refuted: a text on which the loop never ends. The theorem gives exactly the texts on which it never ends."
  },
  {
   "property": "C04",
   "status": "partial",
   "theorems": [
    "C04_fortran_number_value",
    "C04_no_point_refuted"
   ],
   "note": "Proved for every number with a decimal point; a number without one and with a bare signed exponent (1-3) raises."
  },
  {
   "property": "C05",
   "status": "partial",
   "theorems": [
    "C05_reading_keeps_region_partial",
    "C05_reading_void_keeps_region_partial",
    "C05_hash_after_number_refuted",
    "C05_trailing_comment_refuted",
    "C05_comment"
   ],
   "note": "Restriction: hashes set off by blanks, parentheses or colons and no dollar comment; both restrictions are necessary (refutations). A comment up to the end of its line is left out of the card, whatever is in it (C05_comment)."
  },
  {
   "property": "C06",
   "status": "partial",
   "theorems": [
    "C06_surface_list_complete_refuted",
    "C06_surface_list_partial"
   ],
   "note": "Refuted; exact description of what is recorded proved."
  },
  {
   "property": "C07",
   "status": "proved",
   "theorems": [
    "C07_mcnp_cell_keeps_region"
   ],
   "note": "Words of at most 60 characters (needed for wrapping, see C03)."
  },
  {
   "property": "C08",
   "status": "proved",
   "theorems": [
    "C08_serpent_cell_keeps_region"
   ],
   "note": "The cell line; the trans line is not modelled."
  },
  {
   "property": "C09",
   "status": "proved",
   "theorems": [
    "C09_openmc_cell_keeps_region"
   ],
   "note": "The region attribute."
  },
  {
   "property": "C10",
   "status": "proved",
   "theorems": [
    "C10_scone_cell_keeps_region"
   ],
   "note": ""
  },
  {
   "property": "C100",
   "status": "partial",
   "theorems": [
    "C100_case",
    "C100_serpent_refuted"
   ],
   "note": "Proved for both formats that are read. For Serpent, in which the case of a name counts, this is wrong: two materials whose names differ in case only get the same name in memory (the files that are written call materials by their numbers, C89)."
  },
  {
   "property": "C101",
   "status": "partial",
   "theorems": [
    "C101_few",
    "C101_few_file",
    "C101_plane",
    "C101_more",
    "C101_more_cone",
    "C101_points",
    "C101_refuted"
   ],
   "note": "Proved for too few entries (all types but X, Y and Z), which end the program (C101_few_file), and for planes. Refuted for too many: for every other type the card is read as if the last entries were not there, whatever they are; a cone of one sheet with an entry too many becomes the cone of both sheets; X, Y and Z cards with one entry, three or more than four give a surface with the number 0 and without a type."
  },
  {
   "property": "C102",
   "status": "partial",
   "theorems": [
    "C102_material",
    "C102_material_refuted",
    "C102_surface_refuted",
    "C102_twice_refuted"
   ],
   "note": "Proved for materials without a card, if no material has two densities; with one that has, its copy may take the missing number, and the two cells then share the copy with the density of the later one (refuted with a file). Refuted with files: a surface without a card stays named by the cells that are written; two surfaces or cells of one number are both kept, with complements taken of the first; of two materials of one number the first is forgotten."
  },
  {
   "property": "C11",
   "status": "proved",
   "theorems": [
    "C11_fluka_cell_keeps_region"
   ],
   "note": ""
  },
  {
   "property": "C12",
   "status": "proved",
   "theorems": [
    "C12_replace_surface_keeps_region"
   ],
   "note": ""
  },
  {
   "property": "C13",
   "status": "partial",
   "theorems": [
    "C13_generalise_keeps_sides_partial",
    "C13_generalise_sheet_refuted"
   ],
   "note": "Proved for every type but cones with a selected sheet; refuted for those."
  },
  {
   "property": "C14",
   "status": "partial",
   "theorems": [
    "C14_simplify_keeps_sides_partial",
    "C14_simplify_refuted"
   ],
   "note": "Proved unless the only second-order term is zx; refuted for that."
  },
  {
   "property": "C15",
   "status": "partial",
   "theorems": [
    "C15_diff_sound_partial",
    "C15_diff_leaves_surfaces",
    "C15_diff_sound_refuted"
   ],
   "note": "Proved for surfaces without selected cone sheet; refuted for opposite sheets."
  },
  {
   "property": "C16",
   "status": "partial",
   "theorems": [
    "C16_dedupe_keeps_regions_partial",
    "C16_dedupe_keeps_regions_refuted"
   ],
   "note": "Refuted for cones: the two sheets of a cone are merged. Proved when no merged surface is a one-sheet cone or a torus with non-positive radius."
  },
  {
   "property": "C17",
   "status": "proved",
   "theorems": [
    "C17_dedupe_complete"
   ],
   "note": "Distinct positive surface numbers; cells described by integers (a leftover #n raises ValueError in replace_surface)."
  },
  {
   "property": "C18",
   "status": "partial",
   "theorems": [
    "C18_boundary_condition_lost_refuted",
    "C18_boundary_condition_kept_partial"
   ],
   "note": "Refuted: the boundary condition of the removed copy is lost. Kept when equal surfaces have equal conditions."
  },
  {
   "property": "C19",
   "status": "proved",
   "theorems": [
    "C19_surface_card_meaning"
   ],
   "note": "From the text of the card."
  },
  {
   "property": "C20",
   "status": "proved",
   "theorems": [
    "C20_three_point_plane",
    "C20_three_points_unique"
   ],
   "note": ""
  },
  {
   "property": "C21",
   "status": "partial",
   "theorems": [
    "C21_point_surfaces_partial",
    "C21_x_card_refuted",
    "C21_one_pair_ignored",
    "C21_one_pair_refuted"
   ],
   "note": "Proved for y and z cards with two pairs; refuted for x cards and for one pair."
  },
  {
   "property": "C22",
   "status": "partial",
   "theorems": [
    "C22_transform_moves",
    "C22_apply_transform_partial",
    "C22_translation_moves",
    "C22_solids_move",
    "C22_apply_transform_refuted"
   ],
   "note": "transform() proved for every quadric and matrix; planes, spheres and cylinders proved moved by any matrix and two-sheeted cones by any rotation; in general the reader's generalise-transform-simplify sequence proved apart from sheets, tori and the zx case, and refuted for the latter."
  },
  {
   "property": "C23",
   "status": "partial",
   "theorems": [
    "C23_transform_card_partial",
    "C23_two_rows_refuted",
    "C23_minus_one_refuted"
   ],
   "note": "Proved for 3, 12 and 13 entries (13th = 1); refuted for 9 entries and for 13th = -1."
  },
  {
   "property": "C24",
   "status": "partial",
   "theorems": [
    "C24_transform_succeeds_partial",
    "C24_torus_always_raises",
    "C24_torus_refuted",
    "C24_sheet_refuted"
   ],
   "note": "Refuted for tori and sheets; every other type proved not to raise."
  },
  {
   "property": "C25",
   "status": "proved",
   "theorems": [
    "C25_rpp_is_its_six_planes",
    "C25_cards"
   ],
   "note": "The planes are exactly what the reader makes of the cards px, py and pz (C25_cards). From the card text: numbers n+1..n+6, the inside text holds exactly in the open (or closed) box, the outside text is its complement."
  },
  {
   "property": "C26",
   "status": "partial",
   "theorems": [
    "C26_box_is_its_six_planes_partial",
    "C26_backward_edge_refuted"
   ],
   "note": "Refuted for edges along x, y, z in this order of which one points backwards (the inside becomes empty); proved for every other box with perpendicular non-zero edges."
  },
  {
   "property": "C27",
   "status": "proved",
   "theorems": [
    "C27_rcc_is_cylinder_and_planes"
   ],
   "note": "From the card text, every base, non-zero height vector and radius."
  },
  {
   "property": "C28",
   "status": "partial",
   "theorems": [
    "C28_rpp_facets",
    "C28_box_facets",
    "C28_rcc_facets_refuted",
    "C28_rcc_facets_partial"
   ],
   "note": "Proved for RPP and BOX; refuted for RCC, whose facets 2 and 3 are exchanged."
  },
  {
   "property": "C29",
   "status": "partial",
   "theorems": [
    "C29_flatten_keeps_regions_partial",
    "C29_flatten_keeps_regions_refuted"
   ],
   "note": "Proved for every deck in which no macrobody number ends in the digits of another; refuted otherwise (numbers 5 and 15). Words that name no macrobody stay in the text of the cell, and a cell that names none keeps its text."
  },
  {
   "property": "C30",
   "status": "partial",
   "theorems": [
    "C29_flatten_keeps_regions_partial",
    "C30_facet_of_own_macrobody_refuted",
    "C30_pattern",
    "C30_facet_beyond",
    "C30_facet_zero_refuted"
   ],
   "note": "Refuted: 15.2 is resolved against macrobody 5; the facet 0 is taken for the last one beside another facet and stays in the cell alone, in files; a facet beyond the last one raises; the words the search takes for a macrobody are characterised exactly; proved when no macrobody number ends in the digits of another."
  },
  {
   "property": "C31",
   "status": "proved",
   "theorems": [
    "C31_complements_expand",
    "C31_meaning_exists",
    "C31_reference_found"
   ],
   "note": "Descriptions as generalise leaves them; the list of surfaces recorded for a cell is not updated by the expansion (see C39)."
  },
  {
   "property": "C32",
   "status": "partial",
   "theorems": [
    "C32_expansion_ends_refuted",
    "C32_missing_cell_raises"
   ],
   "note": "Refuted: mutually referring cells never finish. A missing cell raises."
  },
  {
   "property": "C33",
   "status": "proved",
   "theorems": [
    "C33_reorganise"
   ],
   "note": "Hypotheses: used materials are defined and their fractions do not sum to zero (normalise raises ZeroDivisionError otherwise). If every cell is void the materials are left as they were read."
  },
  {
   "property": "C34",
   "status": "proved",
   "theorems": [
    "C34_normalise"
   ],
   "note": "Exact arithmetic. The factor is determined: it times the absolute value of the sum is 1."
  },
  {
   "property": "C35",
   "status": "proved",
   "theorems": [
    "C35_explode_atoms"
   ],
   "note": "Exact arithmetic; the abundance table is copied from MaterialData.py and checked to add up to 100 for every element."
  },
  {
   "property": "C36",
   "status": "partial",
   "theorems": [
    "C36_mass_conserved_refuted",
    "C36_mass_ratio_refuted",
    "C36_listed_isotope_refuted",
    "C36_mass_partial"
   ],
   "note": "Refuted: the mass ratio is inverted, so the isotopes of an element given by mass do not add up; an isotope listed next to its element is overwritten. Proved how far it is off: every natural nuclide of an element given by mass is there with between a quarter and nine fifths of its share of the mass, and together they have the mass of the element up to eight in a thousand."
  },
  {
   "property": "C37",
   "status": "partial",
   "theorems": [
    "C37_mcnp_sums",
    "C37_serpent_sums_partial",
    "C37_serpent_sums_refuted"
   ],
   "note": "Proved for MCNP, with the library that is stored for each nuclide. Refuted for Serpent, where the last fraction wins; proved there for cards without repetitions."
  },
  {
   "property": "C38",
   "status": "partial",
   "theorems": [
    "C38_repeat_refuted",
    "C38_repeats_lose_one",
    "C38_second_card_refuted",
    "C38_plain_card_partial",
    "C38_cards_in_order",
    "C38_interval_refuted"
   ],
   "note": "Refuted: every repeat gives one copy too few, so all later cells are shifted; a card without repeats before the neutron card stops the expansion (exactly: the first card with neither i nor r); intervals (2i) are left in and raise. Proved for cards without repeats."
  },
  {
   "property": "C39",
   "status": "partial",
   "theorems": [
    "C39_graveyard_partial",
    "C39_fails_iff",
    "C39_macrobody_refuted",
    "C39_complement_refuted",
    "C39_parenthesis_refuted",
    "C39_photons_refuted"
   ],
   "note": "Refuted for macrobodies (exception), complements (nothing marked), surfaces right after a parenthesis (not marked) and decks with only photon importances (exception). Proved for all other decks; failure characterised exactly."
  },
  {
   "property": "C40",
   "status": "partial",
   "theorems": [
    "C40_star_refuted",
    "C40_always_transmission"
   ],
   "note": "Refuted: the flag is dropped; every surface read has the TRANSMISSION condition, whatever the card."
  },
  {
   "property": "C41",
   "status": "proved",
   "theorems": [
    "C41_bounding_coordinates",
    "C41_total"
   ],
   "note": "All decks; radii not negative."
  },
  {
   "property": "C42",
   "status": "partial",
   "theorems": [
    "C42_compound_partial",
    "C42_endless_refuted"
   ],
   "note": "Proved for compositions of names of at most ten characters and fractions whose exponent has two digits: every pair is written once, in order from the last card to the first, at most three to a card, and writing ends. Refuted: a fraction below 1e-99 makes the loop endless."
  },
  {
   "property": "C43",
   "status": "partial",
   "theorems": [
    "C43_bodies_partial",
    "C43_half_cone_partial",
    "C43_whole_cones",
    "C43_whole_cone_refuted",
    "C43_torus_refuted",
    "C43_half_cone_refuted"
   ],
   "note": "Proved for planes, cylinders, spheres and quadrics at every point, and for half cones between the bounding coordinates. Refuted for whole cones (the sign of the tangent is lost; what is written is proved for every whole cone, and it has no point inside), tori (a comment is written) and half cones outside the bounding coordinates."
  },
  {
   "property": "C44",
   "status": "partial",
   "theorems": [
    "C44_range_partial",
    "C44_order_partial",
    "C44_order_refuted"
   ],
   "note": "Exact arithmetic with the rounding of the format. Range proved for importances of reasonable size; order proved when no importance is zero or all others are at least one; refuted otherwise (zero is written as 1e-4, above small positive importances)."
  },
  {
   "property": "C45",
   "status": "proved",
   "theorems": [
    "C45_prune",
    "C45_exact",
    "C45_circle_refuted"
   ],
   "note": "Pruning always ends, keeps the order, keeps every cell of a universe reached from 0 and leaves at most one universe nothing fills; if fills form no circle and nothing fills universe 0, exactly the reached cells remain. That unreached cells always go is refuted for circles of fills. Lattices, which the program never writes, are not modelled."
  },
  {
   "property": "C46",
   "status": "partial",
   "theorems": [
    "C46_nonsingular",
    "C46_singular",
    "C46_refuted"
   ],
   "note": "Refuted: a quarter turn about z does not come back. Proved: for every rotation outside the singular case the matrix comes back exactly when its entry m3 is 0, and matrices with m0 = m3 = 0 come back. Real arithmetic; the two functions are not called by the Serpent writer, which prints the matrix."
  },
  {
   "property": "C47",
   "status": "partial",
   "theorems": [
    "C47_universes_partial",
    "C47_twice_refuted",
    "C47_no_root_refuted"
   ],
   "note": "Proved for the first call when universe 0 has a cell. Refuted: a second call makes every universe again, and without cells in universe 0 there is no root universe."
  },
  {
   "property": "C48",
   "status": "partial",
   "theorems": [
    "C48_refuted",
    "C48_never"
   ],
   "note": "Refuted: the fill is stored as text and compared with a number, so no universe card ever carries an offset or a rotation."
  },
  {
   "property": "C49",
   "status": "partial",
   "theorems": [
    "C49_partial",
    "C49_all",
    "C49_geometry",
    "C49_after_fluka",
    "C49_all_refuted",
    "C49_names_refuted",
    "C49_twice_refuted",
    "C49_cone_refuted"
   ],
   "note": "Refuted when FLUKA is written before (materials are renamed, whole cones get other coefficients) and when SCONE is written twice; asking for all formats ends with an exception in SCONE for mass densities. Proved: without FLUKA before and without SCONE twice the output of every format is that of the format alone; of all formats the first five are; without whole cones the surfaces and cells survive any order of formats."
  },
  {
   "property": "C50",
   "status": "partial",
   "theorems": [
    "C50_reads_back_partial",
    "C50_sheet_not_written",
    "C50_sheet_refuted",
    "C50_periodic_refuted"
   ],
   "note": "Proved for every surface of a known sense that is not a cone cut to one sheet and not PERIODIC, for any printing of the coefficients that reads back. Refuted for one-sheeted cones (the sheet is not written) and for PERIODIC (nothing is written)."
  },
  {
   "property": "C51",
   "status": "proved",
   "theorems": [
    "C51_particles_round_trip"
   ],
   "note": "All strings."
  },
  {
   "property": "C52",
   "status": "partial",
   "theorems": [
    "C52_names_partial",
    "C52_light_refuted"
   ],
   "note": "Refuted for Z below 10 with A of three digits (hundreds digit dropped); proved for all others, with injectivity."
  },
  {
   "property": "C53",
   "status": "partial",
   "theorems": [
    "C53_keywords_partial",
    "C53_no_keywords",
    "C53_exponent_refuted",
    "C53_blanks_refuted",
    "C53_blanks_before_refuted",
    "C53_two_particles_refuted",
    "C53_other_keyword_refuted",
    "C53_trcl_refuted",
    "C53_next_line",
    "C53_next_line_refuted",
    "C53_no_neutrons",
    "C53_no_neutrons_file",
    "C53_dot"
   ],
   "note": "Proved for cards with any of u, fill and *fill (with transformation number, offset, or offset and rotation), imp:n, vol and tmp, each at most once, in any order, any white space between them, at most one blank on each side of the equals sign, numbers without exponent. Refuted for exponents, several blanks, imp:n,p, other keywords containing the letter u, trcl after fill, and values on the next line (these raise, proved for whatever follows). Every card with the letters imp and no importance of the neutrons alone raises (C53_no_neutrons), whatever else is on it, and with it the program (C53_no_neutrons_file). A number that ends in a dot is read without the dot (C53_dot)."
  },
  {
   "property": "C54",
   "status": "partial",
   "theorems": [
    "C54_cards_partial",
    "C54_nothing_lost",
    "C54_comment_refuted",
    "C54_surface_comment_refuted",
    "C54_dollar_line_refuted",
    "C54_indented_c_refuted",
    "C54_comment_lines"
   ],
   "note": "Proved for every file: the lines before the delimiter go into the cards in order, one card per line that is not indented, and comment lines with c in column one never matter. Refuted: a line with only a dollar comment ends the block or makes an empty card, and a comment line with an indented c becomes a card."
  },
  {
   "property": "C55",
   "status": "partial",
   "theorems": [
    "C55_materials",
    "C55_importances_partial",
    "C55_last_importance_fails",
    "C55_last_importance_refuted",
    "C55_important_refuted",
    "C55_importance_comment_refuted",
    "C55_importance_column_refuted",
    "C55_transforms_partial",
    "C55_last_transform_refuted",
    "C55_transform_comment_refuted"
   ],
   "note": "Materials proved anywhere in the file. Refuted: importance and transform cards on the last line raise, the letters imp in any comment raise, comments on importance cards are read as values and comments on transform cards remove the rotation. Importances and transforms proved when followed by another card and without comments."
  },
  {
   "property": "C56",
   "status": "partial",
   "theorems": [
    "C56_scone_atoms_partial",
    "C56_scone_atom_density_partial",
    "C56_scone_mass_refuted",
    "C56_scone_negative_refuted"
   ],
   "note": "Refuted for mass fractions: proportions by mass are written as proportions by atoms, and with an atom density the values are negative. Proved for atom fractions."
  },
  {
   "property": "C57",
   "status": "partial",
   "theorems": [
    "C57_colour_refuted",
    "C57_colours_missing",
    "C57_colour_cycle_partial"
   ],
   "note": "Refuted: no material ever gets a colour, because its density is zero while its card is read."
  },
  {
   "property": "C58",
   "status": "partial",
   "theorems": [
    "C58_serpent_partial",
    "C58_serpent_refuted",
    "C58_openmc_partial",
    "C58_openmc_refuted",
    "C58_scone_partial",
    "C58_scone_torus_refuted",
    "C58_scone_far_refuted"
   ],
   "note": "Proved for every type: Serpent with cone and torus coefficients of at most six decimals, OpenMC without one-sheeted cones, SCONE without tori and within 1e10 along cones. Refuted outside: narrow Serpent cones, OpenMC half cones, SCONE tori and far points of SCONE cones."
  },
  {
   "property": "C59",
   "status": "partial",
   "theorems": [
    "C59_serpent_partial",
    "C59_openmc_partial",
    "C59_mcnp_partial",
    "C59_scone_partial",
    "C59_serpent_refuted",
    "C59_scone_refuted",
    "C59_scone_torus_refuted",
    "C59_openmc_refuted",
    "C59_mcnp_refuted",
    "C59_fixed_point_error",
    "C59_fixed_point_half"
   ],
   "note": "Refuted: cones and tori are printed to six decimals for Serpent and SCONE, sheets are dropped for OpenMC and MCNP, all SCONE tori are the same line. Proved for the remaining surfaces; the error of fixed point is bounded."
  },
  {
   "property": "C60",
   "status": "partial",
   "theorems": [
    "C60_centre_partial",
    "C60_close_partial",
    "C60_origin_partial",
    "C60_refuted"
   ],
   "note": "Refuted: about (100000,0,0) a sphere and one of half its radius are taken for one. Proved in binary64 (Flocq): spheres taken for one have the same centre; the squares of the radii then differ by at most 2^-51 times (distance^2 + both squares) plus 2^-1072; about the origin the radii are the same unless a square underflows or overflows."
  },
  {
   "property": "C61",
   "status": "partial",
   "theorems": [
    "C61_density_value_refuted",
    "C61_density_value_partial"
   ],
   "note": "Refuted for Fortran exponents with a plus sign; proved for all spellings without plus sign."
  },
  {
   "property": "C62",
   "status": "proved",
   "theorems": [
    "C62_cell_conversion_keeps_region"
   ],
   "note": "Cards with material; numbers of at most 50 digits."
  },
  {
   "property": "C63",
   "status": "partial",
   "theorems": [
    "C63_fluka_line_width_refuted"
   ],
   "note": "Refuted."
  },
  {
   "property": "C64",
   "status": "partial",
   "theorems": [
    "C64_surface_number_partial",
    "C64_surface_number_refuted"
   ],
   "note": "Refuted for Fortran exponents without e."
  },
  {
   "property": "C65",
   "status": "partial",
   "theorems": [
    "C65_element_dropped_refuted",
    "C65_element_kept_iff"
   ],
   "note": "Refuted: an element without entries in the abundance table (Tc, Pm, Po.., Np..) is removed and replaced by nothing. Exactly the elements of the table survive."
  },
  {
   "property": "C66",
   "status": "partial",
   "theorems": [
    "C66_fractions_partial",
    "C66_dropped_refuted",
    "C66_unnamed_fails",
    "C66_unnamed_refuted"
   ],
   "note": "Proved for the nuclides that are not dropped, for every order of the set. Refuted: nuclides of 23 elements (Se, Rb, Y, ...) are dropped silently, and a nuclide such as U-236 raises KeyError."
  },
  {
   "property": "C67",
   "status": "partial",
   "theorems": [
    "C67_declared_partial",
    "C67_wide_refuted"
   ],
   "note": "Proved when densities take at most ten characters, material numbers at most nine digits and fractions have two-digit exponents. Refuted: a density such as 1.2345678901 pushes the name of the material out of its field."
  },
  {
   "property": "C68",
   "status": "partial",
   "theorems": [
    "C68_mcnp_partial",
    "C68_phits_partial",
    "C68_serpent",
    "C68_empty_mcnp_refuted",
    "C68_empty_phits_refuted"
   ],
   "note": "Refuted for materials without nuclides: no line end is written, so the card swallows the next line (the MCNP file becomes unreadable, PHITS materials 1 and 2 become material 12). Proved for all other materials for MCNP and PHITS, and for all materials for Serpent."
  },
  {
   "property": "C69",
   "status": "partial",
   "theorems": [
    "C69_openmc_partial",
    "C69_openmc_zero_refuted",
    "C69_scone"
   ],
   "note": "Refuted for OpenMC when a mass fraction is zero (that nuclide is written as an atom fraction among mass fractions). Proved for OpenMC with the nuclide names of C52 and fractions that are not zero, and for SCONE for every material whose densities are defined (C56 says what they are)."
  },
  {
   "property": "C70",
   "status": "partial",
   "theorems": [
    "C70_openmc_refuted",
    "C70_scone_refuted"
   ],
   "note": "Refuted for OpenMC (the cells are dropped) and SCONE (the fill refers to a universe that does not exist)."
  },
  {
   "property": "C71",
   "status": "partial",
   "theorems": [
    "C71_border_partial",
    "C71_box_refuted",
    "C71_plane_refuted",
    "C71_merged_refuted"
   ],
   "note": "Refuted: the border is taken from the text of the cell, which still names a surface that was removed as a duplicate, so the file has a border that it does not define; inside a box of planes the border is written as surface 0; any later cell with a single positive entry takes the place of the graveyard. Proved: if there are cells of universe 0 with a single positive entry, the border is that of the last one; from the characters of the file on, C84 gives files whose border is the outermost surface."
  },
  {
   "property": "C72",
   "status": "partial",
   "theorems": [
    "C72_process_keeps_geometry_partial"
   ],
   "note": "Proved for whole decks: flattening, complements, transforms, boundary conditions, bounding coordinates and removal of duplicates in one theorem about every point off the surfaces; processing ends without exception unless the importances cannot be read or a cell of importance 0 names a macrobody. Missing, because false (see the findings): facets 2 and 3 of an RCC (C28), macrobody numbers ending in one another (C30), transforms of one-sheet cones and tori and the zx case (C22, C24), duplicates of one-sheet cones (C16). Graveyard cells made of macrobodies raise an exception (C39), which the theorem allows. Universes, their transforms and materials are outside this theorem."
  },
  {
   "property": "C73",
   "status": "partial",
   "theorems": [
    "C73_mcnp_file_partial",
    "C73_importance_refuted"
   ],
   "note": "Refuted for importances that Python prints with an exponent, which are read as the digits before the letter. Proved for whole files, over every place where the line formatter may break the cards: title, cells with keywords and fill transformations, surfaces, materials with their libraries. Missing, because false (see C50, C53, C68): one-sheet cones, periodic boundaries, materials without nuclides, numbers with exponents as universe, fill or importance. Missing otherwise: numbers printed with more than 40 characters."
  },
  {
   "property": "C74",
   "status": "partial",
   "theorems": [
    "C74_serpent_input_partial",
    "C74_comment_refuted",
    "C74_other_card_refuted",
    "C74_sum_refuted"
   ],
   "note": "Refuted: a comment that touches the last word of a line joins it to the next line; a card after a material is read as its nuclides; the density sum is an error. Proved for every file whose materials come last, over all placements of comments after a blank, empty lines, options and line breaks."
  },
  {
   "property": "C75",
   "status": "partial",
   "theorems": [
    "C75_title_partial",
    "C75_message_line_partial",
    "C75_message_block_refuted",
    "C75_title_word_refuted"
   ],
   "note": "Refuted: the blank line that ends a message block is taken for the title and the title for a cell; a title with the word message loses the first cell. Proved for files without message, and for a message line directly followed by the title."
  },
  {
   "property": "C76",
   "status": "partial",
   "theorems": [
    "C76_openmc_geometry_partial",
    "C76_white_refuted",
    "C76_periodic_refuted"
   ],
   "note": "Refuted: a white boundary is written as vacuum, a periodic boundary is an exception. Proved for the whole tree, with the region of each cell read by an independent grammar and the sides of each surface by OpenMC's equations. Missing, because false: cones cut to one sheet (C58), universes with a minus sign (C70). The characters of the files are C90."
  },
  {
   "property": "C77",
   "status": "partial",
   "theorems": [
    "C77_serpent_file_partial",
    "C77_outside_refuted"
   ],
   "note": "Refuted for the outside of the model: a cell of importance 0 is written as a void and no cell is ever written as outside. Proved for the whole file, over every place where the line formatter may break the cells. Missing, because false (C58): cones and tori that need more than six decimals. The library of a nuclide is not written."
  },
  {
   "property": "C78",
   "status": "partial",
   "theorems": [
    "C78_phits_file_partial",
    "C78_outside_refuted"
   ],
   "note": "Refuted for the outer region: a cell of importance 0 is written with material 0 like an inner void, and material -1 is never written. Proved for the whole file, over every place where the line formatter may break the cards. Missing, because false (C50, C68): cones cut to one sheet, periodic boundaries, materials without nuclides. Missing otherwise: numbers printed with more than 40 characters."
  },
  {
   "property": "C79",
   "status": "partial",
   "theorems": [
    "C79_scone_file_partial",
    "C79_fill",
    "C79_torus_refuted"
   ],
   "note": "Refuted for a torus: the words written in its place are no entry of a dictionary and the file cannot be read. Proved for the whole file, over every place where the line formatter may break the cells: braces and brackets match and the dictionaries hold one entry per surface, cell, universe and material. Missing, because false: tori, cones (C58), offsets and rotations of a fill (C48), boundary conditions other than vacuum."
  },
  {
   "property": "C80",
   "status": "partial",
   "theorems": [
    "C80_fluka_file_partial",
    "C80_universe_refuted",
    "C80_density_refuted",
    "C80_torus_refuted"
   ],
   "note": "Refuted for universes (a cell of a universe and the cell it fills are written as two plain regions), for atom densities (written like mass densities) and for a torus (written as a comment, so that its region names no body). Proved for the whole file: bodies, regions, importances up to one common factor, contents and materials with FLUKA's names, every one of which is known or declared exactly once. Missing, because false: the above, whole cones (C43), lines over 132 columns (C63), names and numbers wider than their field (C67)."
  },
  {
   "property": "C81",
   "status": "partial",
   "theorems": [
    "C81_file_partial"
   ],
   "note": "Proved from characters to memory for titles, cells, surfaces, macrobodies, importances, transforms and materials, with comment lines, end-of-line comments and continuation lines. Missing, because false (C05, C19, C23, C26, C37, C53-C55, C75): the card forms refuted there; message blocks are C75. Missing otherwise: tabs, and weight windows."
  },
  {
   "property": "C82",
   "status": "partial",
   "theorems": [
    "C82_fill_transformation_partial",
    "C82_nine_refuted",
    "C82_thirteenth_refuted",
    "C82_missing_transform"
   ],
   "note": "Refuted for nine entries (the two rows are dropped) and for a thirteenth entry -1 (ignored). Proved for the number of a TR card, three entries and twelve entries, with and without the star, from the characters of the cell card to the offset and matrix in memory; a missing TR card raises."
  },
  {
   "property": "C83",
   "status": "partial",
   "theorems": [
    "C83_file_to_deck_partial",
    "C83_cards_partial"
   ],
   "note": "The whole chain from characters to deck, for files of the form of C81. Missing, because false: transformed cones of one sheet and tori whose axis is turned (C16, C22, C24), facets 2 and 3 of an RCC (C28), a macrobody number that ends in the digits of another (C30), a cell of importance 0 that names a macrobody (C39), elements whose isotopes are also listed (C35), importances with repeats, and the card forms that C81 leaves out."
  },
  {
   "property": "C84",
   "status": "partial",
   "theorems": [
    "C84_openmc_partial",
    "C84_serpent_partial",
    "C84_phits_partial",
    "C84_mcnp_partial",
    "C84_scone_partial",
    "C84_fluka_partial",
    "C84_unnamed_fails",
    "C84_tellurium_refuted"
   ],
   "note": "For all files whose cards meet the conditions of C83 on the cards alone (no condition on what is in memory), for all orders of the sets and all printing functions that print words. Missing: cones cut to one sheet (the sheet is lost, C58), nuclides without an OpenMC name (an exception, C69), material cards in a deck without materials; for Serpent, coefficients of cones and tori with more than six decimals, and what C77 leaves out; for PHITS, cones cut to one sheet and the outer region (C78); for MCNP, numbers whose printed form is read back as another number (so far a condition on the deck in memory, `exact_deck`); for SCONE, where a filling universe is placed (lost, C48), tori, and files whose outside is not one surface named by one cell (C71); for FLUKA, tori, cones with both sheets (C43), cut cones outside the coordinates kept of the problem, universes and the sign of densities (lost, C80), numbers wider than their field (C67). Refuted for FLUKA: natural tellurium (and every nuclide without a FLUKA name that is not in the list of elements to leave out) ends the program with an exception and no file."
  },
  {
   "property": "C85",
   "status": "partial",
   "theorems": [
    "C85_library_kept_partial",
    "C85_two_libraries_refuted"
   ],
   "note": "Refuted for a card that gives one nuclide with two libraries (the later one is used for the sum). Proved for cards with one library for each nuclide; C83 carries it through the processing of the deck (`libraries` in `deck_means`) and C84 to the PHITS file."
  },
  {
   "property": "C86",
   "status": "partial",
   "theorems": [
    "C86_vacuum_partial",
    "C86_named_partial",
    "C86_openmc_partial",
    "C86_parenthesis_refuted",
    "C86_complement_refuted",
    "C86_merged_refuted"
   ],
   "note": "Refuted: a surface named right after an opening parenthesis, and an outside given as the complement of a cell, leave the boundary open. Proved instead, from the characters of the file on: exactly the surfaces that a card of importance 0 names by number somewhere else than right after an opening parenthesis are vacuum boundaries. Macrobodies in the outside are excluded (an exception, C39), and of two equal surfaces that are merged the one that is kept keeps its own boundary (C18); with a file of two cards of one sphere, of which the outside names the first, the deck is left without any vacuum boundary (C86_merged_refuted), unless the processing is quick."
  },
  {
   "property": "C87",
   "status": "partial",
   "theorems": [
    "C87_formats_partial",
    "C87_words",
    "C87_together",
    "C87_unknown_refuted",
    "C87_input_refuted"
   ],
   "note": "Refuted: a name of no format (capitals) is accepted and nothing is written, and a word that contains two names (openmcnp) writes both; four of the six input formats raise. Proved: the formats named are written, in their order and no others, up to the first exception; MCNP, Serpent, OpenMC and PHITS together give what each gives alone."
  },
  {
   "property": "C88",
   "status": "partial",
   "theorems": [
    "C88_preserve_refuted",
    "C88_ignored"
   ],
   "note": "Refuted: the option is parsed and never looked at; the MCNP file has no libraries with it or without it. What is kept without the option (PHITS) is C84 and C85."
  },
  {
   "property": "C89",
   "status": "partial",
   "theorems": [
    "C89_materials_partial",
    "C89_openmc_partial",
    "C89_serpent_partial",
    "C89_phits_partial",
    "C89_scone_partial",
    "C89_geometry",
    "C89_geometry_refuted",
    "C89_name_refuted",
    "C89_fluka"
   ],
   "note": "Refuted for the geometry: surfaces and cells of a Serpent file are not read and an MCNP file without them is written, without an error. Proved for the materials, from the characters of the Serpent file to the MCNP file read back, to the materials of OpenMC, to the Serpent file read again, to the PHITS file (nuclides, libraries and fractions; PHITS keeps densities in the cells, of which there are none) and to the SCONE file (atom densities that are the fractions times the density or give the mass density), for any number of materials. Refuted for the names: the Serpent file that is written calls the materials by their numbers. The FLUKA writer always raises for such a deck (the numbers of the materials are integers), so that with the default options neither FLUKA nor SCONE is written. Missing: what C74 leaves out."
  },
  {
   "property": "C90",
   "status": "partial",
   "theorems": [
    "C90_written_read",
    "C90_ascii",
    "C90_indented_read",
    "C90_geometry",
    "C90_materials",
    "C90_files",
    "C90_program_partial",
    "C90_no_break_refuted"
   ],
   "note": "Proved from the characters of the MCNP file to the characters of geometry.xml and materials.xml (C90_program_partial), with a reader of XML that is independent of the writer. Refuted for text that consists of characters that Python takes for blanks and XML does not (such as a no-break space): indent replaces it; no such text is ever given to it. Missing: what C84 leaves out for OpenMC. ElementTree, which is not in the repository, is modelled from its documentation, for characters up to 255."
  },
  {
   "property": "C91",
   "status": "partial",
   "theorems": [
    "C91_file_partial",
    "C91_again_partial",
    "C91_always_partial"
   ],
   "note": "Proved from the characters of the first file to the deck made of the second: the written file is described by cards that meet every condition of C83 and C84, so all theorems about files apply to it, and every cell of the second deck is that of the first file. The sum of the fractions is kept when elements are replaced by isotopes, because the natural abundances of the table add up to 100 for every element, so normalising again changes nothing. C91_always_partial says the same of any number of conversions. Missing: what C84 leaves out for MCNP, points on the surfaces of the first deck, and files without material."
  },
  {
   "property": "C92",
   "status": "proved",
   "theorems": [
    "C92_axis_cylinder",
    "C92_never_inside",
    "C92_axis_cylinder_refuted"
   ],
   "note": "What the function should do is refuted with a witness; what it does is proved for all arguments. The function is not called, so the program is not affected."
  },
  {
   "property": "C93",
   "status": "proved",
   "theorems": [
    "C93_one_sheet",
    "C93_fails_iff",
    "C93_both_sheets",
    "C93_both_sheets_refuted",
    "C93_cell",
    "C93_facet_hangs_refuted",
    "C93_all",
    "C93_again",
    "C93_again_facet",
    "C93_again_refuted"
   ],
   "note": "Proved for one cone and one cell, and for the loop over all surfaces and all cells (C93_all): the number of every surface is kept, every new plane has a number of its own and the transform of its cone, and every cell is the region that it was. The claims that other cones are left alone, that the loop always ends, and that the step can be run on its own result are refuted with witnesses. The cells of C93_all have no complements, of which #(...) is rewritten later in process(). The step is switched off there."
  },
  {
   "property": "C94",
   "status": "proved",
   "theorems": [
    "C94_cell_card",
    "C94_zero"
   ],
   "note": "Proved for all lines. Words with underscores, which int() accepts, are outside the model of int()."
  },
  {
   "property": "C95",
   "status": "partial",
   "theorems": [
    "C95_fixed",
    "C95_second",
    "C95_program_partial",
    "C95_always_partial",
    "C95_once_refuted"
   ],
   "note": "Proved for the whole text of the file and any fuel. What is written the second time is a fixed point whatever the materials are called. That the first conversion is one is refuted with a file of two cells. For the whole program the conditions are derived from the cards of the first file (C95_program_partial), and for any number of conversions (C95_always_partial). Missing: what C84 leaves out for MCNP; exact printing is stated on the deck; surfaces with reflecting or periodic conditions, which the MCNP reader does not read."
  },
  {
   "property": "C96",
   "status": "proved",
   "theorems": [
    "C96_exact",
    "C96_planes",
    "C96_whole",
    "C96_kinds",
    "C96_sphere",
    "C96_cylinder",
    "C96_cone",
    "C96_same",
    "C96_same_refuted",
    "C96_cylinder_refuted",
    "C96_cone_refuted"
   ],
   "note": "Proved on the binary64 numbers of Flocq. The two parts of the statement that say that merged cylinders and cones are the same surface are refuted with witnesses. The square of a float is taken to be rounded correctly. Surfaces with infinite coefficients are left out, and cylinders and cones with numbers above 2^500. Cylinders, spheres and cones with whole coefficients up to 2^16 are compared as over the reals (C96_whole). That surfaces with the same numbers are always taken for one is proved for numbers up to 2^300, and refuted for a sphere of radius 2^600, whose comparison with itself is an OverflowError."
  },
  {
   "property": "C97",
   "status": "partial",
   "theorems": [
    "C97_known",
    "C97_unknown",
    "C97_cards",
    "C97_macrobodies",
    "C97_cut",
    "C97_refuted",
    "C97_graveyard"
   ],
   "note": "Refuted: a card with another mnemonic (ELL, TRC, RHP, REC, WED, ARB and every word that is no piece of a known one) is read as a surface with the number 0 and without a type; the MCNP file that is written has the line 0 Unknown surface type, no surface of that number and no blank line after the surfaces, and there is no exception (unless a cell of importance 0 names the surface). Proved for the supported mnemonics (x, y and z are C21), and for every other mnemonic that the card is refused or read as that empty surface."
  },
  {
   "property": "C98",
   "status": "partial",
   "theorems": [
    "C98_like",
    "C98_like_file",
    "C98_refuted",
    "C98_region_refuted"
   ],
   "note": "Proved that every LIKE card is refused, whatever stands behind it, and with it the whole file (C98_like_file). Refuted for lattices: LAT=1 behind a known keyword is left out without an exception, and all that is written is what is written for a single element; and for any unknown parameter in front of the known ones, whose words become a part of the region (EXT:N=0 gives a union of EXT and N=0)."
  },
  {
   "property": "C99",
   "status": "partial",
   "theorems": [
    "C99_missing",
    "C99_refuted",
    "C99_spelling_refuted",
    "C99_periodic_refuted",
    "C99_sheet_refuted"
   ],
   "note": "Refuted, in whole files and for every surface but macrobodies and cut cones: with a transform that is missing nothing is raised and the surface is kept where it was; the number 01 does not find TR1, because numbers are compared as texts; surfaces declared periodic come out without a boundary condition; one sheet of a cone becomes both. What is right when the card is there is C22."
  }
 ]
}