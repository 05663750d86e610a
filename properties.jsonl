{"id": "C01", "title": "Wrapped cards keep their words", "statement": "Wrapping a card with mcnp_line_formatter never loses, splits, merges, reorders or invents a word: splitting the returned text on whitespace gives the same words, in the same order, as splitting the text that was passed in.", "quantifier": "every card text of any length all of whose words are at most 70 characters long", "why_tests_cant": "a test fixes one text; whether a split lands inside a word depends on where blanks fall relative to column 72 in every possible text", "anchors": ["csg2csg/MCNPFormatter.py:mcnp_line_formatter"]}
{"id": "C02", "title": "Wrapped cards fit in 80 columns and continue correctly", "statement": "Every physical line of the text returned by mcnp_line_formatter is at most 80 characters wide, and every line after the first begins with at least five blanks so that MCNP reads it as a continuation of the same card.", "quantifier": "every one-line card text of any length whose words are at most 70 characters long", "why_tests_cant": "the bound concerns every line of the wrapped text for unboundedly long cards", "anchors": ["csg2csg/MCNPFormatter.py:mcnp_line_formatter"]}
{"id": "C03", "title": "Wrapping a card always finishes", "statement": "mcnp_line_formatter returns for every text it is given.", "quantifier": "every text, including texts with words longer than a line", "why_tests_cant": "a test cannot observe divergence, and the texts that trigger it are those no one thought of writing in a test", "anchors": ["csg2csg/MCNPFormatter.py:mcnp_line_formatter"]}
{"id": "C04", "title": "Fortran numbers are read with their value", "statement": "get_fortran_formatted_number applied to [sign]digits.digits followed by an optional exponent written e+n, e-n, en or, Fortran style, just +n or -n, returns the number sign * digits.digits * 10^(+-n).", "quantifier": "every sign, integer part, fraction part and exponent", "why_tests_cant": "infinitely many spellings; tests check a dozen", "anchors": ["csg2csg/MCNPFormatter.py:get_fortran_formatted_number"]}
{"id": "C05", "title": "Reading a cell keeps its region", "statement": "After an MCNP cell card is read, its generic (interpreted) description denotes, under every assignment of senses to surfaces and cells, exactly the same region as the geometry written on the card.", "quantifier": "every well-formed geometry (any nesting of intersections, unions, complements, parentheses) and every sense assignment", "why_tests_cant": "unbounded nesting and 2^n sense assignments", "anchors": ["csg2csg/MCNPCellCard.py:MCNPCellCard.generalise", "csg2csg/MCNPCellCard.py:MCNPCellCard.__interpret"]}
{"id": "C06", "title": "A cell knows every surface that bounds it", "statement": "After a cell is read, cell_surface_list contains the number of every surface mentioned in its geometry.", "quantifier": "every well-formed geometry", "why_tests_cant": "depends on the position of each surface among the parentheses of arbitrary expressions", "anchors": ["csg2csg/MCNPCellCard.py:MCNPCellCard.generalise"]}
{"id": "C07", "title": "MCNP output of a cell denotes the same region", "statement": "The text written by write_mcnp_cell, read back by the MCNP grammar, has the same cell number, material, density and geometry words as the cell in memory, hence the same region.", "quantifier": "every cell whose interpreted description came from a well-formed card, every cell/material number and density text", "why_tests_cant": "round trip must hold for every expression, including after the text has been wrapped over lines", "anchors": ["csg2csg/MCNPCellCard.py:write_mcnp_cell", "csg2csg/MCNPCellCard.py:mcnp_op_from_generic"]}
{"id": "C08", "title": "Serpent output of a cell denotes the same region", "statement": "The surface list written by write_serpent_cell, read by Serpent's cell grammar (juxtaposition = intersection, ':' = union, '#' = complement), denotes the same region as the generic description.", "quantifier": "every interpreted description and every sense assignment", "why_tests_cant": "unbounded expressions; a lost blank can fuse two surface numbers only in particular arrangements", "anchors": ["csg2csg/SerpentCellCard.py:write_serpent_cell", "csg2csg/SerpentCellCard.py:serpent_op_from_generic"]}
{"id": "C09", "title": "OpenMC output of a cell denotes the same region", "statement": "The region attribute produced by get_openmc_cell_info, read by OpenMC's region grammar (blank = intersection, '|' = union, '~' = complement), denotes the same region as the generic description.", "quantifier": "every interpreted description and every sense assignment", "why_tests_cant": "unbounded expressions", "anchors": ["csg2csg/OpenMCCell.py:get_openmc_cell_info", "csg2csg/OpenMCCell.py:openmc_op_from_generic"]}
{"id": "C10", "title": "SCONE output of a cell denotes the same region", "statement": "The surfaces entry written by write_scone_cell, read by SCONE's unionCell grammar ('<' '>' as parentheses, ':' = union, '#' = complement), denotes the same region as the generic description.", "quantifier": "every interpreted description and every sense assignment", "why_tests_cant": "unbounded expressions", "anchors": ["csg2csg/SCONECellCard.py:write_scone_cell", "csg2csg/SCONECellCard.py:scone_op_from_generic"]}
{"id": "C11", "title": "FLUKA output of a cell denotes the same region", "statement": "The region text written by write_fluka_cell, read by FLUKA's grammar ('+b' inside body b, '-b' outside, '|' = union, '+( )' / '-( )' grouping and complement), denotes the same region as the generic description when body Sn is the negative side of surface n.", "quantifier": "every interpreted description and every sense assignment", "why_tests_cant": "senses are all flipped and two regular-expression rewrites are applied to the text; correctness on every expression cannot be sampled", "anchors": ["csg2csg/FLUKACellCard.py:write_fluka_cell", "csg2csg/FLUKACellCard.py:fluka_op_from_generic"]}
{"id": "C12", "title": "Substituting one surface for an equal one keeps the region", "statement": "After cell.replace_surface(ref, old, reverse), the cell denotes the same region as before under every sense assignment in which surface ref has the same sense as old (or the opposite one when reverse is true), and it no longer mentions old (unless ref is old).", "quantifier": "every cell expression, every pair of surfaces, both values of reverse, every sense assignment compatible with the claim", "why_tests_cant": "all expressions and all sense assignments", "anchors": ["csg2csg/CellCard.py:CellCard.replace_surface"]}
{"id": "C13", "title": "Turning a surface into a general quadric keeps it", "statement": "generalise() on a plane, sphere, cylinder, cone or quadric yields coefficients whose quadric function has, at every point of space, the same sign as the defining function of the original surface.", "quantifier": "every coefficient vector and every point of R^3", "why_tests_cant": "polynomial identity over all coefficients and points", "anchors": ["csg2csg/SurfaceCard.py:SurfaceCard.generalise"]}
{"id": "C14", "title": "Simplifying a quadric keeps it", "statement": "simplify() never changes which points are on the positive and on the negative side of a surface.", "quantifier": "every quadric and every point of R^3", "why_tests_cant": "tests exercise a plane; the faulty coefficient only matters for quadrics nobody tried", "anchors": ["csg2csg/SurfaceCard.py:SurfaceCard.simplify"]}
{"id": "C15", "title": "Surface comparison is sound", "statement": "If diff() reports two surfaces the same, then at every point they have equal sense (second flag false) or opposite sense (second flag true), and the comparison leaves both surfaces as they were.", "quantifier": "every pair of surfaces and every point of R^3", "why_tests_cant": "all pairs and all points", "anchors": ["csg2csg/SurfaceCard.py:SurfaceCard.diff", "csg2csg/SurfaceCard.py:SurfaceCard.reverse"]}
{"id": "C16", "title": "Removing duplicate surfaces keeps every region", "statement": "After duplicate surfaces are removed, every cell denotes the same region as before at every point not lying on a removed surface.", "quantifier": "every deck (any number of surfaces, any number and pattern of duplicates, any cells) and every point", "why_tests_cant": "correctness rests on the order in which pairs are found and replaced over chains of duplicates of any length", "anchors": ["csg2csg/MCNPInput.py:MCNPInput.__remove_duplicate_surfaces", "csg2csg/CellCard.py:CellCard.replace_surface"]}
{"id": "C17", "title": "Duplicate removal is complete and leaves no dangling reference", "statement": "After duplicate removal no two remaining surfaces compare the same, the remaining surfaces are a subsequence of the original ones, and every surface a cell mentions is still in the surface list if it was before.", "quantifier": "every deck with distinct surface numbers", "why_tests_cant": "ranges over all patterns of duplicates", "anchors": ["csg2csg/MCNPInput.py:MCNPInput.__remove_duplicate_surfaces"]}
{"id": "C18", "title": "Duplicate removal keeps boundary conditions", "statement": "If a surface with a vacuum or reflecting boundary condition is merged into another one, the surviving surface carries that boundary condition.", "quantifier": "every deck", "why_tests_cant": "only decks combining a duplicated surface and a boundary condition on the earlier copy show it", "anchors": ["csg2csg/MCNPInput.py:MCNPInput.__remove_duplicate_surfaces", "csg2csg/MCNPInput.py:MCNPInput.__apply_boundary_conditions"]}
{"id": "C19", "title": "Surface cards are classified as what MCNP means by them", "statement": "For every supported mnemonic (p px py pz s so sx sy sz cx cy cz c/x c/y c/z kx ky kz k/x k/y k/z tx ty tz gq sq), the generic type and coefficients stored by MCNPSurfaceCard define, at every point, the same sense as the equation the MCNP manual gives for the card.", "quantifier": "every mnemonic, every coefficient vector of the right length, every point of R^3", "why_tests_cant": "all coefficients and points", "anchors": ["csg2csg/MCNPSurfaceCard.py:MCNPSurfaceCard.__classify_surface_types"]}
{"id": "C20", "title": "A plane through three points", "statement": "A p card with nine entries becomes the plane through the three given points, oriented by MCNP's rule (origin negative; else the point at infinity on +z, else +y, else +x positive).", "quantifier": "every three non-collinear points", "why_tests_cant": "all triples of points and the four degenerate orientations", "anchors": ["csg2csg/MCNPSurfaceCard.py:MCNPSurfaceCard.__classify_general_planes"]}
{"id": "C21", "title": "Surfaces given by points on an axis", "statement": "An x, y or z card with one or two (coordinate, radius) pairs becomes the plane, cylinder or single-sheet cone around that axis through those circles.", "quantifier": "every axis and every one or two pairs", "why_tests_cant": "each axis has its own code path and each pair of pairs its own degenerate case", "anchors": ["csg2csg/MCNPSurfaceCard.py:MCNPSurfaceCard.__classify_edp", "csg2csg/MCNPSurfaceCard.py:MCNPSurfaceCard.__define_edp_1coord", "csg2csg/MCNPSurfaceCard.py:MCNPSurfaceCard.__define_edp_2coord"]}
{"id": "C22", "title": "A transformed surface is the original seen through the transform", "statement": "Applying a TR card with displacement o and matrix B to a surface gives a surface whose sense at p is the sense of the original at B(p - o), for every point p.", "quantifier": "every quadric-representable surface, every displacement, every 3x3 matrix, every point", "why_tests_cant": "polynomial identity in 22 coefficients", "anchors": ["csg2csg/MCNPSurfaceCard.py:MCNPSurfaceCard.transform", "csg2csg/MCNPInput.py:MCNPInput.__apply_surface_transformations"]}
{"id": "C23", "title": "A TR card is read as MCNP means it", "statement": "A TR card with 3, 9 or 12 (optionally 13) entries yields the displacement and rotation matrix MCNP assigns to it; with six direction cosines the third axis completes a right-handed frame; a final -1 inverts the role of the displacement.", "quantifier": "every transform card with those numbers of entries", "why_tests_cant": "all rotation matrices", "anchors": ["csg2csg/MCNPDataCard.py:MCNPTransformCard.__process_string", "csg2csg/Vector.py:cross"]}
{"id": "C24", "title": "Every surface type can be transformed", "statement": "Applying a transform to any supported surface succeeds and gives the transformed surface, tori and single-sheet cones included.", "quantifier": "every surface type and transform", "why_tests_cant": "requires all type/transform combinations", "anchors": ["csg2csg/MCNPInput.py:MCNPInput.__apply_surface_transformations", "csg2csg/MCNPSurfaceCard.py:MCNPSurfaceCard.transform", "csg2csg/SurfaceCard.py:SurfaceCard.generalise"]}
{"id": "C25", "title": "An RPP is exactly its six planes", "statement": "Exploding an RPP gives six surfaces with fresh numbers such that a point lies in the described inside expression iff xmin<=x<=xmax, ymin<=y<=ymax, zmin<=z<=zmax, and in the outside expression iff it does not.", "quantifier": "every RPP and every point", "why_tests_cant": "all boxes and all points", "anchors": ["csg2csg/MCNPInput.py:MCNPInput.explode_macrobody"]}
{"id": "C26", "title": "A BOX is exactly its six planes", "statement": "Reading and exploding a BOX gives six surfaces such that a point satisfies the inside expression iff it is the corner plus a combination, with factors in [0,1], of the three edge vectors; outside is the complement.", "quantifier": "every corner and every three mutually perpendicular non-zero edge vectors, every point", "why_tests_cant": "all orientations, including edges pointing against an axis", "anchors": ["csg2csg/MCNPSurfaceCard.py:MCNPSurfaceCard.__classify_box", "csg2csg/MCNPInput.py:MCNPInput.explode_macrobody"]}
{"id": "C27", "title": "An RCC is exactly its cylinder and two planes", "statement": "Exploding an RCC gives a quadric and two planes such that a point satisfies the inside expression iff its projection on the axis lies between the two end points and its distance to the axis is at most the radius; outside is the complement.", "quantifier": "every base point, every non-zero height vector, every radius, every point", "why_tests_cant": "all orientations of the axis", "anchors": ["csg2csg/MCNPInput.py:MCNPInput.__macro_rcc_cylinder_arbitrary"]}
{"id": "C28", "title": "Facets are numbered as in MCNP", "statement": "Facet k of a macrobody (written n.k) refers to the surface MCNP numbers k: RPP xmax xmin ymax ymin zmax zmin; BOX end/begin of each edge; RCC cylinder, end of the axis, beginning of the axis.", "quantifier": "every macrobody and every facet", "why_tests_cant": "order matters only when facets are referenced", "anchors": ["csg2csg/MCNPInput.py:MCNPInput.explode_macrobody", "csg2csg/MCNPInput.py:MCNPInput.__flatten_macrobodies"]}
{"id": "C29", "title": "Flattening macrobodies keeps every region", "statement": "After macrobodies are flattened no cell mentions a macrobody any more, every new surface number is fresh, and every cell denotes the region it denoted when each macrobody n meant its outside and -n its inside.", "quantifier": "every deck, any number of macrobodies, any cells", "why_tests_cant": "ranges over all decks and all placements of references", "anchors": ["csg2csg/MCNPInput.py:MCNPInput.__flatten_macrobodies", "csg2csg/MCNPCellCard.py:MCNPCellCard.update"]}
{"id": "C30", "title": "A facet reference is resolved against its own macrobody", "statement": "When macrobodies are flattened, a facet reference n.k is replaced by a surface of macrobody n.", "quantifier": "every deck with several macrobodies", "why_tests_cant": "wrong only for particular pairs of numbers (such as 3 and 13) in the same cell", "anchors": ["csg2csg/MCNPInput.py:MCNPInput.__flatten_macrobodies"]}
{"id": "C31", "title": "Cell complements expand to the complement of the cell", "statement": "When the references #n among cells have no cycle, expanding them terminates, no #n remains in any cell, and every cell denotes the region in which #n means the complement of cell n's region.", "quantifier": "every deck with acyclic complements, whatever their order and nesting depth", "why_tests_cant": "unbounded chains of references in any order", "anchors": ["csg2csg/MCNPInput.py:MCNPInput.__explode_nots", "csg2csg/MCNPInput.py:MCNPInput.__split_nots", "csg2csg/MCNPInput.py:MCNPInput.__nots_remaining"]}
{"id": "C32", "title": "Expanding cell complements always finishes", "statement": "Expanding cell complements returns for every deck whose references exist.", "quantifier": "every deck, including one whose complements are cyclic", "why_tests_cant": "divergence cannot be observed by a test", "anchors": ["csg2csg/MCNPInput.py:MCNPInput.__explode_nots"]}
{"id": "C33", "title": "Each cell keeps its composition and density", "statement": "After materials are reorganised, every non-void cell refers to a defined material whose density equals the cell's density and whose composition is that of the material card the cell originally named, and two cells share a material iff they had the same material number and density.", "quantifier": "every deck in which each used material is defined: any number of cells, materials and densities", "why_tests_cant": "depends on the interleaving of fresh numbers with existing ones in any deck", "anchors": ["csg2csg/MCNPInput.py:MCNPInput.__reorganise_materials", "csg2csg/MCNPInput.py:MCNPInput.__next_free_int"]}
{"id": "C34", "title": "Normalising a material", "statement": "normalise() scales every fraction by the same positive factor, keeps signs and relative amounts, and makes the magnitudes of the fractions add up to one when they all have the same sign.", "quantifier": "every composition with non-zero sum", "why_tests_cant": "all compositions", "anchors": ["csg2csg/MaterialCard.py:MaterialCard.normalise"]}
{"id": "C35", "title": "Exploding elements conserves atoms", "statement": "explode_elements() leaves no element (zaid ending in 000) in an atom-fraction material, keeps the entries that were isotopes, and the fractions of the isotopes that replace an element add up to the fraction of the element.", "quantifier": "every composition in atom fractions with elements found in nature and no isotope of an exploded element listed explicitly", "why_tests_cant": "all compositions over 84 elements", "anchors": ["csg2csg/MaterialCard.py:MaterialCard.explode_elements", "csg2csg/MaterialData.py:MaterialData.get_nucs"]}
{"id": "C36", "title": "Exploding elements conserves mass", "statement": "Exploding an element given by mass fraction gives isotopes whose mass fractions add up to that of the element, each in proportion to abundance times isotopic mass; and an isotope listed explicitly next to its element keeps its own contribution.", "quantifier": "every composition in mass fractions, every composition with an element and one of its isotopes", "why_tests_cant": "all compositions", "anchors": ["csg2csg/MaterialCard.py:MaterialCard.explode_elements", "csg2csg/MaterialData.py:MaterialData.atomic_mass"]}
{"id": "C37", "title": "Repeated nuclides add up", "statement": "Reading a material card, the fraction stored for a nuclide is the sum of all the fractions the card gives for it (for any library suffix), the same for MCNP and Serpent cards.", "quantifier": "every material card with any number of entries in any order", "why_tests_cant": "all interleavings of repeated entries", "anchors": ["csg2csg/MCNPMaterialCard.py:MCNPMaterialCard.__process_string", "csg2csg/SerpentMaterialCard.py:SerpentMaterialCard.__process_string"]}
{"id": "C38", "title": "Repeat counts on importance cards", "statement": "An importance card entry 'v nr' stands for v followed by n more copies of v, so that the k-th expanded entry is the importance of the k-th cell.", "quantifier": "every importance card using repeats", "why_tests_cant": "all cards; an off-by-one shifts every later cell", "anchors": ["csg2csg/MCNPInput.py:MCNPInput.__process_importances", "csg2csg/MCNPInput.py:MCNPInput.__apply_boundary_conditions"]}
{"id": "C39", "title": "Graveyard surfaces become vacuum boundaries", "statement": "Every surface mentioned by a cell of zero importance gets the VACUUM boundary condition, no other surface does, and setting the boundary conditions never fails.", "quantifier": "every processed deck", "why_tests_cant": "depends on the shape of arbitrary graveyard expressions (parentheses, macrobodies, complements)", "anchors": ["csg2csg/MCNPInput.py:MCNPInput.__apply_boundary_conditions", "csg2csg/Input.py:InputDeck.get_surface_with_id"]}
{"id": "C40", "title": "Reflecting surfaces stay reflecting", "statement": "A surface card whose number is preceded by '*' yields a surface with the REFLECTING boundary condition, which the writers print.", "quantifier": "every surface card with a star", "why_tests_cant": "every card type must carry the flag through classification", "anchors": ["csg2csg/MCNPSurfaceCard.py:MCNPSurfaceCard.classify", "csg2csg/MCNPSurfaceCard.py:boundary_condition", "csg2csg/OpenMCSurface.py:boundary_condition"]}
{"id": "C41", "title": "Bounding coordinates bound the closed surfaces", "statement": "The deck's bounding coordinates contain, in each direction, every point of every sphere, the cross-section of every axis-parallel cylinder and every axis-normal plane of the deck.", "quantifier": "every deck and every point of those surfaces", "why_tests_cant": "a fold over any number of surfaces", "anchors": ["csg2csg/MCNPInput.py:MCNPInput.__generate_bounding_coordinates", "csg2csg/SurfaceCard.py:SurfaceCard.bounding_box"]}
{"id": "C42", "title": "FLUKA compounds list every component once", "statement": "The COMPOUND cards written for a material contain every (fraction, name) pair of its composition exactly once, at most three per card, and writing them finishes.", "quantifier": "every composition", "why_tests_cant": "any number of components; wrong for field widths that only arise for extreme fractions", "anchors": ["csg2csg/FLUKAMaterialCard.py:write_fluka_compound"]}
{"id": "C43", "title": "FLUKA bodies are the negative sides of the surfaces", "statement": "The body FLUKA builds from the line written by write_fluka_surface for a plane, cylinder, sphere, quadric or cone is, at every point, the negative side of the generic surface.", "quantifier": "every coefficient vector and every point", "why_tests_cant": "all coefficients and points", "anchors": ["csg2csg/FLUKASurfaceCard.py:write_fluka_surface"]}
{"id": "C44", "title": "FLUKA biasing importances are ordered and bounded", "statement": "The importances written to FLUKA keep the order of the cell importances, are positive, and never exceed 1e5.", "quantifier": "every list of cells with non-negative importances", "why_tests_cant": "a property of every pair of cells in every deck", "anchors": ["csg2csg/FLUKAInput.py:FLUKAInput.__write_fluka_importances"]}
{"id": "C45", "title": "Pruning unused OpenMC universes drops only unreachable cells", "statement": "Pruning unused universes terminates, keeps the order of the remaining cells, never drops a cell of universe 0 or of a universe that is reachable from it through fills, and leaves at most one universe that nothing fills.", "quantifier": "every set of cells with universes and fills", "why_tests_cant": "a fixpoint over arbitrary fill graphs", "anchors": ["csg2csg/OpenMCInput.py:OpenMCInput.__check_unused_universes", "csg2csg/OpenMCInput.py:OpenMCInput.__get_unused_fills"]}
{"id": "C46", "title": "Rotation angles reproduce the rotation matrix", "statement": "For a rotation matrix, rotmatrix_from_angle(angle_from_rotmatrix(M)) is M again.", "quantifier": "every rotation matrix", "why_tests_cant": "all rotations", "anchors": ["csg2csg/OpenMCCell.py:angle_from_rotmatrix", "csg2csg/OpenMCCell.py:rotmatrix_from_angle"]}
{"id": "C47", "title": "SCONE universes partition the cells", "statement": "Creating universes puts every cell into exactly one cell universe, gives distinct universe ids, leaves the root universe without cells and pointing at the universe that holds them; doing it again does not add universes.", "quantifier": "every list of cells with any universe numbers", "why_tests_cant": "any number of universes and cells", "anchors": ["csg2csg/Input.py:InputDeck.create_universes_from_cells", "csg2csg/UniverseCard.py:UniverseCard.build_from_cell_list"]}
{"id": "C48", "title": "Fill transformations reach the universe", "statement": "If a cell filled with universe u has a translation or rotation, the universe card of u carries it.", "quantifier": "every deck with filled cells", "why_tests_cant": "needs every combination of universe numbering and types stored by the reader", "anchors": ["csg2csg/UniverseCard.py:UniverseCard.build_from_cell_list", "csg2csg/MCNPCellCard.py:MCNPCellCard.__detect_keywords", "csg2csg/SCONEUniverseCard.py:write_scone_universe"]}
{"id": "C49", "title": "Writing one format does not disturb the next", "statement": "Writing a deck in one format leaves the surfaces and materials unchanged, so that the output for a format does not depend on which formats were written before it.", "quantifier": "every deck and every order of the writers", "why_tests_cant": "depends on the sequence of writers sharing one mutable deck", "anchors": ["csg2csg/__main__.py:main", "csg2csg/Input.py:InputDeck.from_input", "csg2csg/FLUKAInput.py:FLUKAInput.__write_fluka_materials", "csg2csg/FLUKASurfaceCard.py:fluka_cone_x"]}
{"id": "C50", "title": "MCNP output of a surface is the same surface", "statement": "Reading back the card written by write_mcnp_surface gives a surface of the same number with the same sense at every point.", "quantifier": "every generic surface and every point", "why_tests_cant": "all surface types and coefficients", "anchors": ["csg2csg/MCNPSurfaceCard.py:write_mcnp_surface"]}
{"id": "C51", "title": "Particle designators round-trip", "statement": "Translating a generic particle to its MCNP designator and back gives the same particle, and every designator the reader accepts is printed back unchanged.", "quantifier": "every particle and every designator string", "why_tests_cant": "the converse ranges over all strings", "anchors": ["csg2csg/MCNPParticleNames.py:particleToMCNP", "csg2csg/MCNPParticleNames.py:mcnpToParticle"]}
{"id": "C52", "title": "Nuclide names for OpenMC", "statement": "For every nuclide with atomic number 1 to 118 and mass number 1 to 999, zaid_to_name of its zaid is the element symbol followed by the mass number; different nuclides get different names.", "quantifier": "every (Z, A) pair", "why_tests_cant": "over 100000 pairs and all pairs of pairs for injectivity", "anchors": ["csg2csg/OpenMCMaterial.py:zaid_to_name"]}
{"id": "C53", "title": "Cell keywords are read back", "statement": "For a cell card ending in u=, fill= and imp:n= keywords, the stored universe, fill and importance are the written values, and the geometry is what precedes the first keyword.", "quantifier": "every cell card with those keywords with arbitrary values", "why_tests_cant": "all number spellings and keyword orders", "anchors": ["csg2csg/MCNPCellCard.py:MCNPCellCard.__detect_keywords", "csg2csg/MCNPCellCard.py:MCNPCellCard.__get_keyword_value"]}
{"id": "C54", "title": "Every line of a block belongs to exactly one card", "statement": "Splitting a block of cell (or surface) lines into cards puts every line up to the blank delimiter into exactly one card in order, a line starting a new card iff it does not begin with five blanks; comments do not change the cards.", "quantifier": "every file", "why_tests_cant": "files of any length with any placement of comments and continuation lines", "anchors": ["csg2csg/MCNPInput.py:MCNPInput.__get_cell_cards", "csg2csg/MCNPInput.py:MCNPInput.__get_surface_cards"]}
{"id": "C55", "title": "Data cards may stand anywhere in the data block", "statement": "Importance, transform and material cards are read wherever they stand in the data block, in particular on the last line of the file.", "quantifier": "every data block", "why_tests_cant": "position in the file is unbounded", "anchors": ["csg2csg/MCNPInput.py:MCNPInput.__get_importances", "csg2csg/MCNPInput.py:MCNPInput.__get_transform_cards", "csg2csg/MCNPInput.py:MCNPInput.__get_material_card"]}
{"id": "C56", "title": "SCONE atom densities", "statement": "The densities written for a SCONE material are in the proportions of its composition and, for a material given in g/cc, add up to the atom density of a substance of that mass density.", "quantifier": "every material", "why_tests_cant": "all compositions and densities, mass fractions included", "anchors": ["csg2csg/SCONEMaterialCard.py:write_scone_material"]}
{"id": "C57", "title": "Materials get a colour", "statement": "Every material used by a cell gets one of the 63 plotting colours, in order of appearance, cyclically.", "quantifier": "every deck", "why_tests_cant": "any number of materials", "anchors": ["csg2csg/MaterialCard.py:get_material_colour", "csg2csg/MCNPInput.py:MCNPInput.__get_material_card"]}
{"id": "C58", "title": "Serpent, OpenMC and SCONE surfaces denote the same surface", "statement": "The type and coefficients written for a surface to Serpent, OpenMC and SCONE define, by that code's equations, the same sense at every point as the generic surface.", "quantifier": "every generic surface and every point", "why_tests_cant": "all surface types, coefficients and points", "anchors": ["csg2csg/SerpentSurfaceCard.py:write_serpent_surface", "csg2csg/OpenMCSurface.py:openmc_surface_info", "csg2csg/SCONESurfaceCard.py:write_scone_surface"]}
{"id": "C59", "title": "Written coefficients are not truncated", "statement": "Two different surfaces are never written as the same line: coefficients are printed with enough digits.", "quantifier": "every pair of surfaces", "why_tests_cant": "all pairs of coefficient vectors", "anchors": ["csg2csg/SerpentSurfaceCard.py:serpent_cone_x", "csg2csg/SCONESurfaceCard.py:scone_cone_x"]}
{"id": "C60", "title": "Comparison in floating point does not merge different surfaces", "statement": "Two spheres with different radii are never considered duplicates, also with coefficients computed in binary64 arithmetic.", "quantifier": "every pair of spheres", "why_tests_cant": "2^512 pairs", "anchors": ["csg2csg/SurfaceCard.py:SurfaceCard.generalise", "csg2csg/SurfaceCard.py:SurfaceCard.diff"]}
{"id": "C61", "title": "Density on a cell card is read with its value", "statement": "The density recorded for a cell equals the value of the number written on its card, in any of the Fortran spellings MCNP accepts.", "quantifier": "every cell card with material and every spelling of the density", "why_tests_cant": "whether a character of the number is purged before it is read depends on the spelling; infinitely many", "anchors": ["csg2csg/MCNPCellCard.py:MCNPCellCard.__interpret", "csg2csg/MCNPFormatter.py:get_fortran_formatted_number"]}
{"id": "C62", "title": "A cell card that is read and written keeps its region in all five output formats", "statement": "Reading a cell card and writing it with write_mcnp_cell, write_serpent_cell, the OpenMC region attribute, write_scone_cell or write_fluka_cell gives text which the grammar of the target code reads as the region on the card, with the same number and material.", "quantifier": "every well-formed cell card whose geometry mentions signed surface numbers, every truth assignment to the surfaces", "why_tests_cant": "composition of reader and writer over unbounded expressions, including wrapping over lines", "anchors": ["csg2csg/MCNPCellCard.py", "csg2csg/SerpentCellCard.py", "csg2csg/OpenMCCell.py", "csg2csg/SCONECellCard.py", "csg2csg/FLUKACellCard.py"]}
{"id": "C63", "title": "FLUKA region lines fit the FLUKA input width", "statement": "Every line written by write_fluka_cell has at most 132 characters, the width FLUKA reads in free format.", "quantifier": "every cell", "why_tests_cant": "line length grows with the expression", "anchors": ["csg2csg/FLUKACellCard.py:write_fluka_cell"]}
{"id": "C64", "title": "Entries of surface cards may be spelled as MCNP allows", "statement": "An entry of a surface card in any numeric form MCNP accepts, including exponents without the letter e (1.0-3), is read with its value.", "quantifier": "every surface card and every spelling of its entries", "why_tests_cant": "infinitely many spellings", "anchors": ["csg2csg/MCNPSurfaceCard.py:MCNPSurfaceCard.classify"]}
{"id": "C65", "title": "No element disappears from a material", "statement": "After the elements of a material are exploded, every chemical element that was in the composition is still in it.", "quantifier": "every composition, elements without natural isotopes included", "why_tests_cant": "all compositions over 118 elements", "anchors": ["csg2csg/MaterialCard.py:MaterialCard.explode_elements", "csg2csg/MaterialData.py:MaterialData.get_nucs"]}
{"id": "C66", "title": "Collapsing nuclides to FLUKA names keeps the fractions", "statement": "In the compositions written for FLUKA the fraction of every name is the sum of the fractions of the nuclides of that name, and together they are the whole of the material.", "quantifier": "every set of materials, every order in which the set of nuclides is enumerated", "why_tests_cant": "the order of a Python set changes from run to run; unbounded sets of nuclides", "anchors": ["csg2csg/FLUKAInput.py:FLUKAInput.__write_fluka_materials"]}
{"id": "C67", "title": "Every FLUKA component is declared exactly once with its atomic number", "statement": "Every component name on a COMPOUND card is predefined in FLUKA or declared by exactly one MATERIAL card, whose atomic number is that of all nuclides of that name, and every card keeps the ten-column fields of FLUKA.", "quantifier": "every set of materials, every order in which the set of nuclides is enumerated", "why_tests_cant": "the order of a Python set changes from run to run; unbounded sets of nuclides", "anchors": ["csg2csg/FLUKAInput.py:FLUKAInput.__write_fluka_materials", "csg2csg/FLUKAMaterialCard.py:write_fluka_material_element", "csg2csg/FLUKAMaterialCard.py:write_fluka_material"]}
{"id": "C68", "title": "Materials that are written can be read back", "statement": "The material section written for MCNP or PHITS, read with the MCNP reader, and the one written for Serpent, read with the Serpent reader, give back exactly the materials: the same numbers, nuclides and fractions (and for Serpent the density).", "quantifier": "every set of materials, with or without libraries and colours, every printing of numbers that reads back (Serpent fractions: seven digits)", "why_tests_cant": "all materials at once, including empty ones next to others; round trips of unbounded files", "anchors": ["csg2csg/MCNPMaterialCard.py:write_mcnp_material", "csg2csg/MCNPInput.py:MCNPInput.__write_mcnp_materials", "csg2csg/PhitsInput.py:PhitsInput.__write_phits_materials", "csg2csg/SerpentMaterialCard.py:write_serpent_material", "csg2csg/SerpentInput.py:SerpentInput.__get_material_cards"]}
{"id": "C69", "title": "OpenMC and SCONE materials say what the material is", "statement": "The OpenMC element of a material has its number and name, the size of its density with the unit given by its sign, and one nuclide element for each nuclide, with different names and all of one kind (ao or wo); the SCONE text defines each nuclide of the material once with its atom density and nothing else.", "quantifier": "every material of named nuclides, every density and fractions", "why_tests_cant": "all compositions; signs and zeros of fractions; numbers printed to seven digits", "anchors": ["csg2csg/OpenMCMaterial.py:write_openmc_material", "csg2csg/OpenMCMaterial.py:zaid_to_name", "csg2csg/SCONEMaterialCard.py:write_scone_material"]}
{"id": "C70", "title": "A universe with a minus sign is the universe without it", "statement": "A cell with u=-n belongs to universe n (in MCNP the sign only says that the cell is not cut by the cell it fills): every output format puts it into the universe that fill=n refers to.", "quantifier": "every deck with universe numbers given with a minus sign", "why_tests_cant": "depends on the interplay of the reader with each writer for all universe numbers", "anchors": ["csg2csg/OpenMCInput.py:OpenMCInput.__check_unused_universes", "csg2csg/UniverseCard.py:UniverseCard.build_from_cell_list", "csg2csg/MCNPCellCard.py:MCNPCellCard.__detect_keywords"]}
{"id": "C71", "title": "The border of the SCONE root universe bounds the model", "statement": "The border surface written for the SCONE root universe is a surface of the model, and it is the surface the graveyard lies outside of.", "quantifier": "every deck with a graveyard", "why_tests_cant": "all ways to write the graveyard", "anchors": ["csg2csg/UniverseCard.py:UniverseCard.build_from_cell_list", "csg2csg/SCONEUniverseCard.py:write_scone_universe"]}
{"id": "C72", "title": "Processing a deck keeps the geometry", "statement": "Every point that is on no surface and no facet is, after process(), in exactly the cells it was in before: a point is in a cell of the processed deck (its description read with the processed surfaces) exactly when it is in the cell of the cards (with its macrobodies, facets, complements and surface transforms). Cell numbers, materials, densities and importances are those of the cards; the processed description uses only surfaces of the processed deck and no macrobody, facet or complement.", "quantifier": "every deck of surfaces, macrobodies, transforms and cells, every point", "why_tests_cant": "the composition of flattening, complement expansion, transforms, boundary conditions and removal of duplicates is tested on a handful of decks and only by comparing text; the space of decks and points is unbounded", "anchors": ["csg2csg/MCNPInput.py:MCNPInput.process", "csg2csg/MCNPInput.py:MCNPInput.__flatten_macrobodies", "csg2csg/MCNPInput.py:MCNPInput.__explode_nots", "csg2csg/MCNPInput.py:MCNPInput.__apply_surface_transformations", "csg2csg/MCNPInput.py:MCNPInput.__remove_duplicate_surfaces"]}
{"id": "C73", "title": "An MCNP file that is written reads back", "statement": "The MCNP file written for a deck is read by the MCNP reader without exception, and the deck that is read has the same cells (number, material, density, region, universe, fill, transformation of the fill, importance), the same surfaces (number and sides) and the same materials (nuclides and fractions), in the same order.", "quantifier": "every deck of cells, surfaces and materials, every way of wrapping the lines", "why_tests_cant": "the deck, the lengths of the cards and so the places where lines are broken are unbounded; the tests compare a few files with stored text and never read them again", "anchors": ["csg2csg/MCNPInput.py:MCNPInput.write_mcnp", "csg2csg/MCNPInput.py:MCNPInput.process", "csg2csg/MCNPCellCard.py:write_mcnp_cell", "csg2csg/MCNPSurfaceCard.py:write_mcnp_surface", "csg2csg/MCNPFormatter.py:mcnp_line_formatter", "csg2csg/MCNPMaterialCard.py:write_mcnp_material"]}
{"id": "C74", "title": "Serpent materials are read as they are written in the file", "statement": "Reading a Serpent file gives, for each material in order, its name, its density and its nuclides with their fractions, whatever the comments, empty lines, options and line breaks in between.", "quantifier": "every Serpent file whose materials come last, every placement of comments, empty lines and line breaks", "why_tests_cant": "all layouts of the lines, which the tests have in one or two forms only", "anchors": ["csg2csg/SerpentInput.py:SerpentInput.__get_material_card", "csg2csg/SerpentInput.py:SerpentInput.__get_material_cards", "csg2csg/SerpentInput.py:SerpentInput.process", "csg2csg/SerpentMaterialCard.py:SerpentMaterialCard.__process_string"]}
{"id": "C75", "title": "The title and a message block change nothing else", "statement": "The title of a file is its first line (the line after the message block, if there is one), and the cells, surfaces and other cards that are read depend on neither of them.", "quantifier": "every title, every message, every file", "why_tests_cant": "all titles, including those that look like other cards", "anchors": ["csg2csg/MCNPInput.py:MCNPInput.__set_title", "csg2csg/MCNPInput.py:MCNPInput.process"]}
{"id": "C76", "title": "The OpenMC geometry is the geometry of the deck", "statement": "The geometry tree written for OpenMC holds every surface with its number, its sides and its boundary condition, and every cell that can be reached from universe 0 with its number, its universe, its region and what is in it (void, a material, or a universe with its translation and rotation).", "quantifier": "every deck of surfaces, cells in universes, and materials", "why_tests_cant": "all decks, all depths of universes; the tests look at single elements", "anchors": ["csg2csg/OpenMCInput.py:OpenMCInput.write_openmc", "csg2csg/OpenMCCell.py:write_openmc_cell", "csg2csg/OpenMCSurface.py:write_openmc_surface", "csg2csg/OpenMCInput.py:OpenMCInput.__check_unused_universes"]}
{"id": "C77", "title": "The Serpent file is the deck", "statement": "The file written for Serpent, read by Serpent's rules (words, comments from % on, cards that begin with a keyword), holds exactly one card for each surface, cell, transformation of a fill and material of the deck, in order and with nothing in between, and each says what the deck says.", "quantifier": "every deck, every way of wrapping the lines", "why_tests_cant": "all decks; that words of one card are never taken for keywords or comments, and that cards never run into each other, depends on all of the text at once", "anchors": ["csg2csg/SerpentInput.py:SerpentInput.write_serpent", "csg2csg/SerpentCellCard.py:write_serpent_cell", "csg2csg/SerpentSurfaceCard.py:write_serpent_surface", "csg2csg/SerpentMaterialCard.py:write_serpent_material"]}
{"id": "C78", "title": "The PHITS file is the deck", "statement": "The file written for PHITS, read by PHITS's rules (sections in brackets, comments, cards that continue on lines with five blanks), holds the title, the parameters, exactly one card for each surface, each cell, each importance and each material of the deck, in order and in the section they belong to, with nothing else, and each says what the deck says.", "quantifier": "every deck, every way of wrapping the lines", "why_tests_cant": "all decks; that a wrapped line is never taken for a card, a comment or a section depends on all of the text at once, and the tests never read the file again", "anchors": ["csg2csg/PhitsInput.py:PhitsInput.write_phits", "csg2csg/MCNPCellCard.py:write_mcnp_cell", "csg2csg/MCNPSurfaceCard.py:write_mcnp_surface", "csg2csg/MCNPMaterialCard.py:write_mcnp_material", "csg2csg/MCNPFormatter.py:mcnp_line_formatter"]}
{"id": "C79", "title": "The SCONE file is the deck", "statement": "The file written for SCONE, read by SCONE's rules (nested dictionaries of entries ended by a semicolon, lists in brackets, comments from ! or // on), is the geometry and the material dictionary, with exactly one entry for each surface, cell, universe and material of the deck, in order, under its own number, and each says what the deck says.", "quantifier": "every deck, every way of wrapping the lines", "why_tests_cant": "all decks; that braces and brackets match and that no word is taken for a separator depends on all of the text at once, and the tests compare single cards with stored text", "anchors": ["csg2csg/SCONEInput.py:SCONEInput.write_scone", "csg2csg/SCONECellCard.py:write_scone_cell", "csg2csg/SCONESurfaceCard.py:write_scone_surface", "csg2csg/SCONEUniverseCard.py:write_scone_universe", "csg2csg/SCONEMaterialCard.py:write_scone_material"]}
{"id": "C80", "title": "The FLUKA file is the deck", "statement": "The file written for FLUKA, read by FLUKA's rules (comments from a star in the first column, bodies and regions between GEOBEGIN and GEOEND, cards of fixed columns up to STOP), has the title, exactly one body for each surface, one region for each cell, one importance and one content for each cell and the cards of each material of the deck, in order, with nothing else, and each says what the deck says.", "quantifier": "every deck, every order of the set of nuclides", "why_tests_cant": "all decks; that no line of one kind is taken for another and that every name that is used is declared depends on the whole text, and the tests never read the file again", "anchors": ["csg2csg/FLUKAInput.py:FLUKAInput.write_fluka", "csg2csg/FLUKACellCard.py:write_fluka_cell", "csg2csg/FLUKASurfaceCard.py:write_fluka_surface", "csg2csg/FLUKAMaterialCard.py:write_fluka_material"]}
{"id": "C81", "title": "An MCNP file is read as MCNP means it", "statement": "From the characters of a file (title, cell cards, blank line, surface cards, blank line, data cards, with comments, continuation lines and lower or upper case anywhere) to what is in memory: there is exactly one cell per cell card, in order, with its number, material, density, region and keywords, one surface per surface card, with its number, its transform and the sides or the macrobody that MCNP means, and for each particle, transform and material the values of its last card.", "quantifier": "every file of this form", "why_tests_cant": "all files; the passes over the lines look at the first columns, blanks, dollar signs and letters of all cards at once, and the tests read a few stored files and compare counts", "anchors": ["csg2csg/Input.py:Input.read", "csg2csg/MCNPInput.py:MCNPInput.process", "csg2csg/MCNPInput.py:__get_cell_cards", "csg2csg/MCNPInput.py:__get_surface_cards", "csg2csg/MCNPCellCard.py:MCNPCellCard", "csg2csg/MCNPSurfaceCard.py:MCNPSurfaceCard", "csg2csg/MCNPDataCard.py:MCNPTransformCard", "csg2csg/MCNPMaterialCard.py:MCNPMaterialCard"]}
{"id": "C82", "title": "A filled cell is placed as its FILL keyword says", "statement": "The universe that fills a cell is moved by the transformation of the FILL keyword: the TR card it names, or its own entries, read as angles if FILL has a star; without a transformation it is not moved; a TR card that does not exist is an exception.", "quantifier": "every cell card with a FILL keyword, every set of TR cards", "why_tests_cant": "all cards and all values; the tests compare the stored text of a few cards", "anchors": ["csg2csg/MCNPCellCard.py:MCNPCellCard.__detect_keywords", "csg2csg/MCNPInput.py:MCNPInput.__apply_universe_transformations"]}
{"id": "C83", "title": "An MCNP file becomes the deck it describes", "statement": "From the characters of an MCNP file to the deck that is handed to the writers: the file is read and processed without an exception, the surfaces of the deck have distinct positive numbers and sides, and the k-th cell of the deck has the number, the importance (from the IMP card, its own keyword, or 1), the material with the density and, up to one factor, the composition of its cards, the universe, the fill and the motion of the k-th cell card, and a point on no surface is in its region exactly when it is in the cell as MCNP means it, through macrobodies, facets, complements of cells and transformations; two cells share a material exactly when they had the same material number and density.", "quantifier": "every file of cell, surface and data cards of the stated form, every point", "why_tests_cant": "all files and all points; the passes that read, split, transform, renumber, expand and flatten work on the whole deck one after another and any of them can undo another, and the tests compare stored output of a few decks", "anchors": ["csg2csg/MCNPInput.py:MCNPInput.process", "csg2csg/MCNPInput.py:MCNPInput.__flatten_macrobodies", "csg2csg/MCNPInput.py:MCNPInput.__explode_nots", "csg2csg/MCNPInput.py:MCNPInput.__reorganise_materials", "csg2csg/MCNPInput.py:MCNPInput.__process_importances", "csg2csg/MCNPInput.py:MCNPInput.__apply_universe_transformations"]}
{"id": "C84", "title": "The program writes the model the file describes", "statement": "From the characters of an MCNP file to the files that are written: asked for OpenMC, the program ends without an exception, and in what it writes every cell of a universe that is part of the model is there, with the number and universe of its card, filled with its material (composition up to one factor, density) or with the universe of its FILL keyword moved as the card says, and its region, read with the surfaces that are written, contains a point exactly when the cell does as MCNP means it; no other cells are written, surfaces, cells and materials have numbers of their own. Asked for Serpent, the same holds of the file, read card by card, for every cell card of the MCNP file. Asked for PHITS, it holds of the sections of the file, with the importances and the libraries of the nuclides. Asked for MCNP, it holds of the file read again. Asked for SCONE, it holds of the dictionaries of the file, with the universes listing exactly the cells of their cards and the root bordered by the outermost surface. Asked for FLUKA, it holds of the bodies and regions of the file, with the importances up to one factor, the contents of the regions and the materials by FLUKA's names.", "quantifier": "every MCNP file of the stated form, every point on no surface", "why_tests_cant": "all files and all points; this is the statement about the whole program that the tests approach by comparing the output for a few decks with stored files", "anchors": ["csg2csg/__main__.py:main", "csg2csg/MCNPInput.py:MCNPInput.process", "csg2csg/OpenMCInput.py:OpenMCInput.write_openmc", "csg2csg/SerpentInput.py:SerpentInput.write_serpent", "csg2csg/PhitsInput.py:PhitsInput.write_phits", "csg2csg/SCONEInput.py:SCONEInput.write_scone", "csg2csg/FLUKAInput.py:FLUKAInput.write_fluka"]}
{"id": "C85", "title": "Cross-section libraries are kept", "statement": "Reading an MCNP material card, the library stored for a nuclide is the one the card names with it (the text after the dot, empty without one), for every entry of the card; it is still there when the deck is handed to the writers, and the isotopes that replace an element have none.", "quantifier": "every material card with any number of entries in any order", "why_tests_cant": "all orders and repetitions of entries; the library of a repeated nuclide depends on the order, and the tests read cards with one library", "anchors": ["csg2csg/MCNPMaterialCard.py:MCNPMaterialCard.__process_string", "csg2csg/MaterialCard.py:MaterialCard.explode_elements"]}
{"id": "C86", "title": "Exactly the boundary of the outside is a vacuum boundary", "statement": "Reading an MCNP file, a surface of the deck is a vacuum boundary if and only if some cell card of importance 0 uses it in its geometry; every other surface is an ordinary one. Asked for OpenMC, the surfaces of geometry.xml carry exactly these boundary conditions.", "quantifier": "every MCNP file of the stated form and every surface of its deck", "why_tests_cant": "all geometries of the outside; which surfaces are recorded depends on where parentheses and complements stand in the card and on what flattening does to it, and the tests look at decks with one simple outside", "anchors": ["csg2csg/MCNPInput.py:MCNPInput.__apply_boundary_conditions", "csg2csg/MCNPInput.py:MCNPInput.__process_importances", "csg2csg/MCNPCellCard.py:MCNPCellCard.generalise", "csg2csg/OpenMCSurface.py:boundary_condition"]}
{"id": "C87", "title": "The formats asked for are written, and no others", "statement": "The program writes one result for each format that the command line names, in that order, or for all six if none is named, and each is what the program gives if it is asked for that format only; a name of no format is an error; the input is read in the format that is named.", "quantifier": "every list of words given to --output, every input", "why_tests_cant": "all lists and orders; the tests run the program with one list", "anchors": ["csg2csg/__main__.py:main"]}
{"id": "C88", "title": "The option preserve keeps the cross-section libraries", "statement": "With the option --preserve the MCNP file that is written names for every nuclide the library that the input names for it; without it none is named.", "quantifier": "every MCNP file", "why_tests_cant": "all materials; no test uses the option", "anchors": ["csg2csg/__main__.py:main", "csg2csg/MCNPInput.py:MCNPInput.write_mcnp", "csg2csg/MCNPMaterialCard.py:write_mcnp_material"]}
{"id": "C89", "title": "A Serpent file is converted", "statement": "A Serpent file converted to another format describes the same surfaces, cells and materials.", "quantifier": "every Serpent file", "why_tests_cant": "all files; the tests read the materials of one file and write nothing", "anchors": ["csg2csg/SerpentInput.py:SerpentInput.process", "csg2csg/SerpentInput.py:SerpentInput.__get_material_cards", "csg2csg/__main__.py:main", "csg2csg/FLUKAMaterialCard.py:write_fluka_material"]}
{"id": "C90", "title": "The files written for OpenMC are XML that says what the tree says", "statement": "The characters of geometry.xml and materials.xml, read as XML, are the trees of surfaces, cells and materials that the program built: every name and value is read back as it was, whatever signs it contains, and the blanks put in to indent the file change nothing. Every character of the files is one of ASCII. So the OpenMC model read from the characters of the files is the one that the MCNP file describes.", "quantifier": "every tree whose names are names of XML and whose texts have no control characters; every MCNP file of C84", "why_tests_cant": "all texts, with the signs that have to be replaced, and all depths; the tests compare no file", "anchors": ["csg2csg/OpenMCInput.py:indent", "csg2csg/OpenMCInput.py:OpenMCInput.write_openmc", "csg2csg/OpenMCMaterial.py:write_openmc_material", "csg2csg/OpenMCCell.py:write_openmc_cell", "csg2csg/OpenMCSurface.py:write_openmc_surface"]}
{"id": "C91", "title": "The MCNP file that is written can be converted again and is the same model", "statement": "The MCNP file that the program writes for an MCNP file is one that the program reads, and converting it again changes nothing: the second deck has the cells of the first file, with their numbers, importances, universes, fills, materials, densities and regions; normalising the fractions twice is normalising them once.", "quantifier": "every MCNP file of C84 with a material", "why_tests_cant": "all files and all points, the text of one file given to the program again; the tests never read a file that the program wrote", "anchors": ["csg2csg/__main__.py:main", "csg2csg/MCNPInput.py:MCNPInput.write_mcnp", "csg2csg/MCNPInput.py:MCNPInput.process", "csg2csg/MCNPMaterialCard.py:write_mcnp_material", "csg2csg/MaterialCard.py:MaterialCard.normalise", "csg2csg/MaterialCard.py:MaterialCard.explode_elements"]}
{"id": "C92", "title": "The simpler cylinder macrobody that nobody calls is not the cylinder", "statement": "The version of the RCC macrobody for an axis along x, y or z, which explode_macrobody no longer calls, should name the points of the cylinder between its two ends and raise for any other axis. It raises for exactly the other axes, but its text for inside names the part of the infinite cylinder below both end planes, so no point of the cylinder at all; the text for outside is the complement of that.", "quantifier": "every base, axis, radius, last surface number and point", "why_tests_cant": "the function is not reachable from the program, and no test calls it", "anchors": ["csg2csg/MCNPInput.py:MCNPInput.__macro_rcc_cylinder"]}
{"id": "C93", "title": "One sheet of a cone as a cone and a plane (switched off)", "statement": "The step that replaces a one-sheeted cone by the cone of both sheets and a plane through its apex, which process() has commented out, keeps the inside and the outside of the sheet and the region of every cell that names it, at every point on neither surface. So does the loop over all surfaces and cells: no number of a surface is used twice, and every cell is the region that it was. It should leave every other cone alone; it raises for a cone of both sheets, also for one that it has made itself and a cell names, and does not end when a cell names a facet of the number.", "quantifier": "every list of surfaces and of cells without facets and complements, every point; every cone card without a sheet", "why_tests_cant": "the step is not reachable from the program, and no test calls it", "anchors": ["csg2csg/MCNPInput.py:MCNPInput.__simplify_cone", "csg2csg/MCNPInput.py:MCNPInput.__simplify_cones"]}
{"id": "C94", "title": "Which lines count for cell cards", "statement": "is_cell_card answers True exactly for a line whose first word is an integer other than zero, whatever follows, so also for surface cards and continuation lines, and it raises exactly for a zero that is alone or stands before something that is no integer.", "quantifier": "every line", "why_tests_cant": "all lines; no test calls the function", "anchors": ["csg2csg/MCNPCellCard.py:is_cell_card"]}
{"id": "C95", "title": "Converting the MCNP file that was written gives the same file", "statement": "The MCNP file that the program writes, given to the program again, is read without an exception and written with the same characters: one more conversion is a fixed point. The first conversion need not be one, because the copies of a material with several densities are named by where they came from and later by their number.", "quantifier": "every deck in memory that can be written and has nothing left to merge, to rename or to normalise; every number of conversions of it; every text and width of card", "why_tests_cant": "all decks, and equality of all characters of the two files; the tests never read a file that the program wrote", "anchors": ["csg2csg/__main__.py:main", "csg2csg/MCNPInput.py:MCNPInput.write_mcnp", "csg2csg/MCNPInput.py:MCNPInput.process", "csg2csg/MCNPInput.py:MCNPInput.__reorganise_materials", "csg2csg/MCNPCellCard.py:write_mcnp_cell", "csg2csg/MCNPSurfaceCard.py:mcnp_surface_card", "csg2csg/MCNPMaterialCard.py:write_mcnp_material"]}
{"id": "C96", "title": "The comparison of surfaces in floating point, for surfaces of every type", "statement": "In binary64 arithmetic planes, quadrics and tori are compared exactly as over the reals. Two surfaces that are taken for one are both planes or are of the same type, and only planes are taken for one with their sides exchanged. Cylinders that are taken for one have the same axis, cones the same axis and tangent, and their radii and apexes differ by a rounding error at most. Two surfaces of one type with the same numbers are always taken for one, whatever is rounded, as long as the numbers are not so great that a square overflows. That they are the same surface is false: a cylinder far from the origin is taken for one of half its radius, and a cone for one with another apex.", "quantifier": "every pair of surfaces with finite coefficients; for cylinders and cones of moderate size", "why_tests_cant": "2^512 and more pairs; the tests compare a handful of surfaces", "anchors": ["csg2csg/SurfaceCard.py:SurfaceCard.generalise", "csg2csg/SurfaceCard.py:SurfaceCard.diff", "csg2csg/SurfaceCard.py:SurfaceCard.reverse"]}
{"id": "C97", "title": "A surface card of a type that the program does not know is refused", "statement": "A surface card whose mnemonic the program does not support ends the conversion with an error; every other card is refused or gives a surface with the number and the transform on the card and a type.", "quantifier": "every surface card, every mnemonic", "why_tests_cant": "all words can stand where the mnemonic stands; the tests read cards of supported types only", "anchors": ["csg2csg/MCNPSurfaceCard.py:MCNPSurfaceCard.classify", "csg2csg/MCNPSurfaceCard.py:MCNPSurfaceCard.__mcnp_type", "csg2csg/MCNPSurfaceCard.py:MCNPSurfaceCard.__classify_surface_types", "csg2csg/MCNPSurfaceCard.py:write_mcnp_surface"]}
{"id": "C98", "title": "A cell card with a parameter that the program does not know is refused", "statement": "A cell card that takes its description from another cell (LIKE n BUT), that describes a lattice (LAT) or that carries any other parameter the program does not read either ends the conversion with an error or keeps its region; the parameter is never taken for a part of the region and never changes the geometry by being left out.", "quantifier": "every cell card of the form number LIKE rest; every text after LIKE", "why_tests_cant": "the rest of a LIKE card is arbitrary text that may contain the letters of the known keywords anywhere; the tests read cards with known keywords only", "anchors": ["csg2csg/MCNPCellCard.py:MCNPCellCard.__detect_keywords", "csg2csg/MCNPCellCard.py:MCNPCellCard.__interpret", "csg2csg/MCNPCellCard.py:MCNPCellCard.__get_keyword_value"]}
{"id": "C99", "title": "A surface that names a transform the file does not have is refused", "statement": "A surface card with a number in the place of the transform either is transformed by the TR card of that number, however the number is spelled, or (if the number is negative) is periodic to the surface of that number, or ends the conversion with an error.", "quantifier": "every surface with a meaning, every set of TR cards", "why_tests_cant": "the tests transform surfaces with cards that are there; whether a surface moved is not visible in any count the tests make", "anchors": ["csg2csg/MCNPInput.py:MCNPInput.__apply_surface_transformations", "csg2csg/MCNPSurfaceCard.py:surface_has_transform", "csg2csg/MCNPSurfaceCard.py:MCNPSurfaceCard.classify"]}
{"id": "C100", "title": "The case of letters does not matter", "statement": "Two MCNP files that differ only in the case of letters are converted to the same outputs, with all options and in every format; two names in a Serpent file that differ in the case of letters stay different.", "quantifier": "every pair of files, all options, all formats that are read or written", "why_tests_cant": "there are as many pairs of files as there are choices of letters; the tests read each file in one spelling", "anchors": ["csg2csg/Input.py:InputDeck.read", "csg2csg/SerpentInput.py:SerpentInput.process"]}
{"id": "C101", "title": "A surface card with the wrong number of entries is refused", "statement": "A surface card with fewer or more entries than the MCNP manual gives for its type ends the conversion with an error.", "quantifier": "every surface card of a supported type, any number of entries, whatever they are", "why_tests_cant": "the tests read cards with the right number of entries only", "anchors": ["csg2csg/MCNPSurfaceCard.py:MCNPSurfaceCard.classify", "csg2csg/MCNPSurfaceCard.py:MCNPSurfaceCard.__classify_cone_on_axis", "csg2csg/MCNPSurfaceCard.py:MCNPSurfaceCard.__classify_general_planes", "csg2csg/MCNPSurfaceCard.py:MCNPSurfaceCard.__classify_edp"]}
{"id": "C102", "title": "A file whose cards do not fit together is refused", "statement": "A file in which a cell names a surface or a material without a card, or in which two surfaces, two cells or two materials have the same number, ends the conversion with an error.", "quantifier": "every MCNP file, all options", "why_tests_cant": "the tests read files that are complete and without a number given twice", "anchors": ["csg2csg/MCNPInput.py:MCNPInput.__reorganise_materials", "csg2csg/MCNPInput.py:MCNPInput.__get_material_cards", "csg2csg/MCNPInput.py:MCNPInput.__get_surface_cards", "csg2csg/MCNPInput.py:MCNPInput.process"]}
