# Design of the csg2csg model and proofs

Target: `makeclean/csg2csg`, source in `/repo/csg2csg`. Nothing of the project is
run; the model is transcribed by hand from the text of the source.

## Trusted base

1. Coq 8.16.1's kernel (`coqc`; `coqchk` re-checks the compiled files).
2. What `Print Assumptions` lists, printed in the build log under every property
   theorem:
   * modules about text, cells, materials, importances, decks, universes
     (strings, `Z`, `Q`): *Closed under the global context*;
   * modules about geometry (points and coefficients in the standard library's
     `R`): the axioms of `Coq.Reals` only, that is
     `ClassicalDedekindReals.sig_forall_dec`, `ClassicalDedekindReals.sig_not_dec`
     and `FunctionalExtensionality.functional_extensionality_dep`;
   * in addition `Classical_Prop.classic` of the standard library: in C46 and in
     everything that contains the SCONE writer (C49, C58, C59, C79 and the whole
     program in C53, C84, C86 to C91, C95, C97, C98, C100 and C101), because the standard library's
     trigonometry uses it for the angle of a cone; and in C60 and C96, which use
     the library Flocq 4.1.0 (lemmas only, no axiom of its own).
   No axiom of our own anywhere.
3. The transcription.  Every definition of the model cites the file and lines it
   models and says in its comment where it is simpler than the code.

General simplifications (repeated at the definitions concerned):

* Python `float` is idealised as an exact number (`R` for geometry, `Q` for
  materials and importances).  `float(str(x)) == x` in Python 3, so numbers that
  travel through text in the code are passed on directly.  Rounding is treated
  where it is the subject of the property (C59, C60, C96).
* Python exceptions are values (`Err`); `while` loops that may diverge take fuel
  and have an explicit out-of-fuel answer, which theorems exclude, or are
  characterised by a step relation.
* Text is a list of characters (`ascii` = Latin-1).  `str.split()` uses
  Python's white space below 256.
* `logging`, `warnings`, file opening and argument parsing are not modelled.

Specifications are separate from the model: regions are given by an inductive
grammar over tokens with a denotation over sense assignments (`RegionSpec.v`);
surfaces by textbook equations (`GeomSpec.v`); target-code grammars likewise.

## Files (`rocq/theories`)

Models of the code (every definition cites file and lines), specifications
(written from the manuals, no model helper in them), lemmas, and the property
theorems (`Prop*.v`), each with `Print Assumptions` and an `Example`.

| files | kind | subject |
|---|---|---|
| `PyStr`, `PyInt`, `PyDict`, `PyFmtE` (+ `…Facts`) | model | Python string, `int()`/`str()`, dictionary and `{:e}` operations the code uses |
| `Formatter`, `FortranNumber` (+ `…Proofs`), `PropText` | model | `MCNPFormatter.py` (C01–C04) |
| `RegionSpec`, `RegionFacts`, `LexSpec` | specification | region expressions, their meaning, the token rules of the target codes |
| `CellModel`, `CellProofs`, `CellText`, `PropCell` | model | `CellCard.py`, `MCNPCellCard.py` (C05, C06, C12, C61) |
| `KeywordModel`, `PropKeyword` | model | keywords of cell cards (C53) |
| `CellWriters`, `CellWritersProofs`, `CellWritersOut`, `PropWriters` | model | the five cell writers (C07–C11, C62, C63) |
| `GeomSpec`, `SurfSpec`, `MacroSpec`, `TargetSpec`, `FlukaSpec` | specification | equations of surfaces and bodies in the manuals |
| `SurfModel`, `SurfProofs`, `PropSurf`, `PropTransform` | model | `SurfaceCard.py`, `MCNPSurfaceCard.py`, TR cards (C13–C15, C19–C24, C64) |
| `MacroModel`, `MacroProofs`, `MacroText`, `PropMacro` | model | macrobodies as planes and cylinders (C25–C28) |
| `FlattenModel`, `FlattenProofs`, `FlattenDeck`, `PropFlatten` | model | macrobodies replaced in cells (C29, C30) |
| `NotsModel`, `NotsProofs`, `PropNots` | model | `#n` (C31, C32) |
| `DedupeModel`, `DedupeProofs`, `PropDedupe` | model | duplicate surfaces (C16–C18) |
| `NuclideData`, `MaterialModel`, `MaterialProofs`, `PropMaterial`, `ReorgProofs`, `PropReorg` | model | materials (C33–C37, C56, C57, C65) |
| `MaterialWriters`, `PropMaterialOut`, `PropMaterialTargets` | model | material writers (C68, C69) |
| `NamesModel`, `PropNames` | model | names of nuclides and particles (C51, C52) |
| `BoundaryModel`, `PropBoundary` | model | importances, boundary conditions, bounding coordinates (C38–C41) |
| `SurfWriters`, `SurfWritersProofs`, `SurfTargets`, `SurfScone`, `PropSurfOut`, `PropSurfTargets` | model | surface writers (C50, C58, C59) |
| `FlukaModel`, `FlukaInput`, `PropFluka`, `PropFlukaMat`, `PropFlukaNames` | model | FLUKA bodies, materials, importances (C42–C44, C66, C67) |
| `DeckScan`, `PropDeck` | model | lines of a file to cards (C54, C55) |
| `OpenMCPrune`, `PropPrune` | model | OpenMC cells and unused universes (C45, C70) |
| `UniverseModel`, `PropUniverse` | model | SCONE universes (C47, C48, C70, C71) |
| `EulerModel`, `PropEuler` | model | angles of a rotation (C46) |
| `ConvertModel`, `PropConvert` | model | the deck, all six writers, the loop over the formats (C49) |
| `FloatModel`, `PropFloat` | model | comparison of spheres in binary64 (C60) |
| `ProcessModel`, `ProcessSpec`, `ProcessProofs`, `PropProcess` | model, spec, proofs | the stages of `process` in their order (C72) |
| `WrapProofs`, `FileModel`, `FileProofs`, `PropFile` | model, proofs | a whole MCNP file: what the line formatter does to a card, the reader of a file, writing followed by reading (C73) |
| `PropSerpentIn`, `PropTitle`, `PropOpenMC` | proofs | reading of Serpent materials (C74), title and message block (C75), the OpenMC geometry as a whole (C76) |
| `LayoutProofs`, `PropSerpentFile` | proofs | blocks of text, comments and cards; the file written for Serpent as a whole (C77) |
| `PropPhitsFile` | proofs | lines, sections and continued cards of a PHITS file; the file written for PHITS as a whole (C78) |
| `PropSconeFile` | proofs | dictionaries of SCONE read by a small stack machine; the file written for SCONE as a whole (C79) |
| `PropFlukaFile` | proofs | how FLUKA reads a file; the file written for FLUKA as a whole (C80) |
| `PropRead` | proofs | what an MCNP file says, card by card, and what is in memory after reading it (C81) |
| `MainModel` | `MCNPCellCard.py` 337-374, `MCNPInput.py` 294-303, `MCNPInput.process` | where a filled cell is placed; the deck in memory after a file is read and processed |
| `PropPlace` | proofs | the transformation of a universe (C82) |
| `PropMain` | proofs | from the characters of a file to the deck (C83) |
| `PropCards` | proofs | C83 with all its conditions on the cards: how every surface card is stored, which quadrics survive a motion |
| `PropProgram` | proofs | the whole program, from the characters of a file to an OpenMC model (C84) |
| `PropTexts` | proofs | the texts in a processed deck: numbers of surfaces and materials that are not too long, densities and names that can be printed, conditions stated on the cards (`printable`) |
| `PropProgramSerpent` | proofs | the whole program, from the characters of a file to the Serpent file (C84) |
| `PropProgramPhits` | proofs | the whole program, from the characters of a file to the PHITS file (C84) |
| `PropVacuum` | proofs | which surfaces of a file become vacuum boundaries (C86) |
| `PropProgramMcnp` | proofs | the whole program, from the characters of a file to the MCNP file read again (C84) |
| `OptionsModel` | model | `__main__.py`: options, the words of `--output`, Serpent files as input |
| `PropOptions` | proofs | the command line, the option preserve, Serpent files (C87-C89) |
| `XmlModel` | model | `indent` and the characters of geometry.xml and materials.xml |
| `PropXml` | proofs | a reader of XML; the files for OpenMC are read back (C90) |
| `PropProgramXml` | proofs | from the characters of an MCNP file to the characters of the files for OpenMC (C90) |
| `PropCellText` | proofs | what is left in the text of a cell after the program has read and processed a file: the words that name plain surfaces stay; used for the border of the SCONE root universe (C84) |
| `PropProgramScone` | proofs | C84 for SCONE: from the characters of the MCNP file to the dictionaries of the SCONE file, with its universes and border; C71 for merged surfaces |
| `PropFlukaCards` | proofs | which surface cards become bodies FLUKA can be given: no tori, planes with a normal, cones cut to one sheet, through flattening and motions (C84) |
| `PropSerpentTo`, `PropSerpentMore` | proofs | a Serpent file converted to OpenMC, to Serpent, to PHITS and to SCONE (C89) |
| `AgainMat` | proofs | a composition written as a card and read again (C91) |
| `PropAgain` | proofs | the MCNP file that is written is of the form that is read (C91) |
| `PropAgainProgram` | proofs | an MCNP file converted to MCNP and converted again (C91) |
| `UnusedModel` | model | the functions that nobody calls: `__macro_rcc_cylinder`, `__simplify_cone(s)`, `is_cell_card` |
| `PropUnused` | proofs | what they do (C92-C94) |
| `PropFixpoint` | proofs | the MCNP file that is written, converted again, is the same text (C95) |
| `PropFixpointProgram` | proofs | the same for the whole program, from the characters of the first file: the second conversion is a fixed point (C95), and any number of conversions keep the meaning (C91) |
| `FloatDiffModel`, `PropFloatDiff`, `PropFloatSame` | model, proofs | comparison of surfaces of every type in binary64 (C96) |
| `PropUnknown` | proofs | surface cards of unknown types (C97) |
| `PropParameters` | proofs | cell cards with unknown parameters (C98); cards with an importance of another particle only (C53) |
| `PropMass` | proofs | how far the isotopes of an element given by mass are off (C36) |
| `PropMissing` | proofs | surfaces with a transform that is missing (C99) |
| `PropCase` | proofs | the case of letters (C100) |
| `PropEntries` | proofs | surface cards with the wrong number of entries (C101), the cards of the planes of an RPP (C25) |
| `ConesModel` | model | the loop over all one-sheeted cones and all cells, `MCNPInput.py` 633-703 (C93) |
| `PropCones` | proofs | the loop keeps every cell, and cannot be run on its own result (C93) |
| `PropMerged` | proofs | the vacuum boundary of a surface that is merged with a later one (C86) |
| `PropRefused` | proofs | a file with one card that is refused ends the program: LIKE BUT (C98), no importance of the neutrons (C53), too few entries (C101) |
| `PropFit` | proofs | files whose cards do not fit together: missing materials and surfaces, numbers given twice (C102), facets that do not exist (C30) |
| `PropProgramFluka` | proofs | C84 for FLUKA: from the characters of the MCNP file to the bodies, regions, cards and materials of the FLUKA file; nuclides without a name stop it |

## Per property

| id | modelled | how |
|---|---|---|
| C01 | `mcnp_line_formatter` with fuel | induction on fuel; invariant: words of output = words of emitted text ++ words of rest |
| C02 | same | same induction, on physical lines |
| C03 | same | refuted: a text on which no fuel suffices; proved for words ≤ 70 |
| C04 | `get_fortran_formatted_number` on characters, value in Q | structural lemmas on the scan for the sign of the exponent |
| C05 | `generalise` on token lists | AND tokens are erased; general token lemma, then grammar determinism |
| C06 | `cell_surface_list` | refuted by `( 1 2 )`; partial: surfaces not right after `(` |
| C07 | `write_mcnp_cell` as text, then split into words | text lemmas + C01 |
| C08–C11 | other cell writers as text | words of the text = tokens of target grammar; induction on grammar |
| C12 | `replace_surface` | induction on tokens, then on the grammar derivation |
| C13–C15 | `generalise`, `simplify`, `diff`, `reverse` over R | `ring`/`nra` per type; refutations by witness points |
| C16–C17 | the pair search and replacement loop over lists | induction over the pair list |
| C18 | boundary conditions in the surface record | refuted by witness; partial: survivors keep their own |
| C19–C21 | classification functions over R | algebra per mnemonic |
| C22–C24 | `transform`, TR card reading, `cross` | `ring` identity; witnesses for the refutations |
| C25–C28 | `explode_macrobody` over R | algebra; Cauchy–Schwarz-free projections |
| C29–C30 | `__flatten_macrobodies` on tokens with the regular expression as a predicate | token-level induction |
| C31–C32 | `__explode_nots` with fuel | measure on acyclic decks; non-termination by invariance of a cyclic deck |
| C33 | `__reorganise_materials` | loop invariants on sets/dictionaries as lists |
| C34–C37 | `MaterialCard`, material readers | induction over association lists in Q; the abundance table transcribed in full |
| C38–C39 | importance expansion, boundary conditions | list induction; refutations |
| C40 | `classify` boundary flag | refuted |
| C41 | bounding box fold | fold invariant over R |
| C42–C44 | FLUKA compound chunks, bodies, importances | chunk induction; algebra; Q order |
| C45 | pruning loop | measure = number of cells; reachability inductive relation |
| C46 | rotation angles | trigonometry over R (`atan2` defined from `atan`) |
| C47–C48 | universe creation | list induction; refutation for types |
| C49 | composition map and coefficient updates of FLUKA writer | refuted by witness; partial for other writers |
| C50, C58 | surface writers as (mnemonic, coefficients) | algebra per type; refutations for cones |
| C51–C52 | particle and nuclide names | case analysis; string arithmetic |
| C53 | the regular expression of the keyword reader as a recursive scanner | string induction |
| C54–C55 | card splitting | induction over lines |
| C56–C57 | SCONE densities, colours | Q algebra |
| C59 | `{:f}` formatting as rounding to 6 decimals | error bound; witnesses |
| C60 | `generalise` and `diff` of spheres on Flocq's binary64 | rounding-error analysis: same centre, bound on the radii, exact about the origin; refuted far away |
| C61 | `get_fortran_formatted_number` in the cell reader | refuted by a spelling MCNP allows; partial for the others |
| C62 | reading and each writer composed | C05 with C07–C11 |
| C63 | `write_fluka_cell` | refuted: the region is one line |
| C64 | numbers of surface cards through `float()` | refuted for `1+2`; partial for Python spellings |
| C65 | abundance table, `explode_elements` | decided from the table transcribed in full |
| C66–C67 | `FLUKAInput.py` collapse, numbering and cards | induction over dictionaries; refutations for missing and wide names |
| C68–C69 | material writers as text, read back by the reader models | induction over the lines; Q within the printed digits |
| C70 | universe numbers with a sign in OpenMC, SCONE | refuted by witness |
| C71 | search for the root border | refuted by witnesses (box, plane, merged duplicate); partial: which cell decides; the files of C84 have their outermost surface |
| C72 | `MCNPInput.process` from the cards on: C29, C31, C22, C39, C41, C16, C17 composed | `reads_at` says what the cards mean at a point; each stage keeps it; what is false of a stage is excluded by `good_input` |
| C73 | `MCNPInput.write_mcnp` then `MCNPInput.process` up to the cards: `mcnp_file`, `read_file` | `loosens` relates a card to its wrapped lines; cells by C53 and the words of the card, surfaces by C50, materials by C68, the lines by C54; both directions are model functions, so the statement speaks of texts only between them |
| C74 | `SerpentInput.process` as `read_serpent` | lines as (words, comment) pairs; induction over the lines of a material; refutations by file |
| C75 | `__set_title` and the split of the file | rewriting of the line list; refutations by file |
| C76 | `write_openmc` as element trees | `says_cell`, `says_surface` read the attributes by OpenMC's manual; C09, C45, C58, C69 composed |
| C77 | `write_serpent` as `serpent_file` | `serpent_reads` takes out comments and cuts the words at the keywords of the Serpent manual; `block` lemmas put the file together from its cards; C08, C58, C68 give the meaning of each |
| C78 | `write_phits` as `phits_file` | `phits_reads` takes the lines apart into sections and cards; `fmt_lines` gives the shape of every wrapped card, `sheet` lemmas put the file together; C50, C11, C68 give the meaning of each card |
| C79 | `write_scone` as `scone_file` | `scone_reads` takes words and separators into a tree of dictionaries; each card is shown to act on the stack as one entry (`acts`), whatever the line breaks; C58, C11, C47 give the meaning of each entry; a torus breaks the dictionary |
| C80 | `write_fluka` as `fluka_file` | `fluka_reads` drops comments and cuts the lines at GEOBEGIN, END, GEOEND and STOP; each writer is shown to give one line of its kind (`linear`, `live`, `option_line`); C43, C11, C42, C66, C67 give the meanings; refuted for universes, atom densities and tori |
| C81 | `read_file`: `readlines`, `get_cell_cards`, `get_surface_cards`, `read_cell_card`, `read_surface`, importances, transforms, materials | the specification says what each card means (`says_cell`, `says_surf`, `says_data`); composition of C53, C54, C55, C05, C19, C23, C37; comment lines are dropped first (`comments_dropped`); the last card with a given name wins (`last_for`) |
| C82 | `universe_placing`, `apply_universe_transform` | specification: `fill_means` on the characters in the parentheses, with the motion of a TR card (`tr_means`, `last_for`); memory read back by `placing_means`; nine and thirteen entries refuted |
| C83 | `load`, `in_memory` | specification: `means_at` (truth of the words of the file at a point, from the cards alone), `importance`, `made_of`, `fill_means`; the deck read back by `deck_means`; composition of C81, C72, C33, C35, C40 and C82; conditions on the cards in `good_cards`, on transformed surfaces in `memory_fine` |
| C84 | `program` (`load`, then `run`) | `describes` (characters of the file), `used` (universes of the model), `omc_says`, `content_said`; composition of C83, C49, C76, C69; for Serpent `printable`, `serp_cell_said`, composition of C83, C49, C77; for PHITS `phits_cell_said`, `placed`, composition of C83, C49, C78; for SCONE `scone_cell_said`, `lists_universe`, `root_said`, `atom_densities`, composition of C83, C49, C79, C71, C56; for FLUKA `fluka_cards`, `fluka_widths`, `fluka_nuclides`, `fluka_body_said`, composition of C83, C49, C80, C66; tellurium refuted |
| C85 | `mcnp_composition`, `explode` | `after_dot`, `library` (the last entry for a nuclide); `C37_mcnp_sums` carries the library, `explode_libraries` takes it through the expansion of elements, `libraries` in `deck_means` through the deck |
| C86 | `process`, `load`, `program` | `set_off` (a token of the geometry as it is written, not right after an opening parenthesis), `outside_names`; `process_vacuum` says what is recorded after flattening and complements (`flatten_record`, `explode_surfs`), `file_cells` and `cell_card_words` take it to the characters of the card; exact for the files of C83; refuted for parentheses and complements, and for an outside bounded by the first of two equal cards |
| C87 | `options`, `asked`, `main` | `wants` says which formats a command line asks for; the result of the run is a prefix of them, the whole list if there is no exception; `C87_together` rests on C49 (what a writer changes in the deck); refuted for names of no format and for four input formats |
| C88 | `main` | `C84_mcnp_example` gives the file read back, whose nuclide has an empty library, for both values of the option; refuted |
| C89 | `serpent_deck`, `run_serpent`, `main` | the Serpent file is given line by line as in C74 (`smat`, `good_smat`); C73's reader reads the MCNP file again; `C89_openmc_partial`, `C89_serpent_partial`, `C89_phits_partial` and `C89_scone_partial` do the same for OpenMC (C69), Serpent (C77), PHITS (C78) and SCONE (C79); refuted for the geometry and for the names of materials. Integer numbers of materials are texts in the model and are sorted as integers (`by_number`) |
| C90 | `indent`, `serialise`, `geometry_text`, `materials_text`, `openmc_trees`, `program` | `read_xml` is a reader of the part of XML 1.0 that has elements, attributes, character data and references; `writable_tree` asks for names of XML, different attribute names and no control characters; `plain` forgets text that is only blanks; refuted for text of a no-break space |
| C91 | `program`, `load`, `mcnp_file` | `describes` says that the characters written are cards of the form that C83 asks for, and `good_cards`, `fine_cards`, `uncut_cards` hold of them, so that C83 and C84 apply again; `cell_again` compares the cells of the second deck with the cards of the first file; `exact_motions` asks that the coordinates of fills are printed exactly; for any number of conversions: the second and later files are those of the first deck with other names for the materials, and the names have no part in the meaning |
| C92 | `rcc_along_axis` | `body_ok` of C25-C27 with the body the texts name, `below_both`; no point of `in_rcc` is in it |
| C93 | `simplify_cone`, `cone_words`, `cone_cell`, `simplify_cones` | the texts read as MCNP geometry against the sides of the one-sheeted cone; the region of a cell before and after; the loop for every number of rounds; all surfaces and cells by induction over the surfaces, with the sides of what is not yet done taken from before |
| C94 | `is_cell_card` | both answers and the exception characterised by the first words of the line |
| C95 | the text of a card depends on its words only; nothing is merged, renamed or normalised in a deck that is settled; reading cannot fail for a complete deck | equality of all characters of both files; the first conversion refuted |
| C96 | `generalise` and `diff` of every type on Flocq's binary64 | planes, quadrics and tori are never rounded, nor are whole numbers up to 2^16; the coefficients of the squares tell the types apart; cylinders reduced to the spheres of C60, cones by the rounding error of one product; surfaces with the same numbers agree through every operation as no intermediate result overflows; identity of merged cylinders and cones refuted |
| C97 | `classify_card`, `program` | the words that are pieces of the known mnemonics are a finite list, which is computed; every other word falls through all tests; a whole conversion of a file with an ellipsoid is computed |
| C98 | `read_cell_card`, `detect_keywords`, `interpret`, `program` | no searched word begins inside the number and LIKE, so every cut of the card leaves them, and LIKE is no integer; two files that differ by LAT=1 are read alike, by computation |
| C99 | `apply_transform`, `load` | what is left of the surface is the general quadric of C13, untransformed; whole files are computed |
| C100 | `main`, `read_lines`, `serpent_deck` | the letters are made lower case before anything else looks at them, and no letter becomes a line end |
| C101 | `read_surface` with every classifier | each classifier is a function of the first entries (`floats n`), which more entries do not change and fewer make an exception; refuted with a sphere of two radii and a cone |
| C102 | `load` on whole files, `reorganise_materials` | with one density for each material the copies of materials are the cards themselves, so a missing key stays missing and the lookup raises; refuted by evaluating `load` on files |

## Not modelled

Python's argparse (the options are given as values), logging, reading of
Serpent geometry (the program has none), `vtk`/plotting helpers.  ElementTree is
not in the repository: `XmlModel` follows its documentation and is trusted to be
what it does, for characters up to 255.  Wrong programs tried against the
theorems are logged in `seeded/LOG.jsonl`.  Any property for which this turns out
to matter says so in `MANIFEST.json`.
