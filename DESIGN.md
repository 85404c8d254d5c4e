# Formal model of kiutils in Rocq (Coq 8.16.1)

## Approach

kiutils reads and writes KiCad S-expression files.  Everything a user relies on
goes through the same pipeline:

    text --parse_sexp--> nested lists --from_sexpr--> objects --to_sexpr--> text

The model mirrors each stage as total Gallina functions:

* text is `str = list N`, a list of Unicode code points;
* a Python value is `val` (None, bool, int, float, str, list);
* a float is a binary64 number given by sign, integral mantissa and exponent; reading is
  correctly rounded, printing is Python's shortest `repr`;
* an exception is a value: every function that can raise returns `res A = Ok a | Err e`;
* each dataclass is a record with one field per attribute, in the order of the source;
* `from_sexpr` / `to_sexpr` of each class are functions that follow the source
  branch by branch (loops become folds over the item list);
* files are bytes under a path; an encoding is a pair of partial functions.

Every definition in `Py*.v`, `Sexpr.v` and `M_*.v` carries a comment with the file and lines
it models.  All functions and methods of `src/kiutils` are covered (checked with a script that
compares the line ranges in the comments with the syntax tree of the source), except the three
that consist of `raise NotImplementedError` (`Position.to_sexpr`, and the two abstract methods of
`ProjectInstance`) and `remove_prefix`, which is only used for the clock (see "Not modelled").

### Files (in `rocq/theories`)

| file | contents |
|---|---|
| `RecordSet.v` | record update notation |
| `PyBase.v`, `PyNum.v`, `PyStr.v`, `PyRe.v` | Python values, numbers, strings, the used part of `re` |
| `Sexpr.v`, `M_Lexer.v` | `utils/sexpr.py`: a direct scanner and the parser; the same by `re.finditer(term_regex, ..)` |
| `M_*.v` | one Python module each: records, `from_sexpr`, `to_sexpr`, `libId`, `create_new`, no proofs |
| `M_File.v` | `from_file`, `to_file` and the part of the operating system they use |
| `S_Leaf.v`, `S_Tree.v`, `S_Parse.v` | specification: printable leaves, the notions used in the statements, documents |
| `S_Common.v` ... `S_Wks.v` | specification per module: the expression each class stands for, what is printable, what reading it again gives |
| `S_Id.v`, `S_Fix.v`, `S_File.v`, `S_Reader.v`, `S_Settle.v`, `S_Gather.v`, `S_Pick.v`, `S_Local.v`, `S_Layout.v`, `S_Place.v`, `S_Chars.v`, `S_Lines.v`, `S_Write.v`, `S_Accept.v`, `S_Raise.v`, `S_Tidy.v`, `S_Typed.v`, `S_Equal.v` | specification of identifiers, fixed point numbers, files, missing and exchanged tokens, saving again, collected lists and dictionaries, the tokens that feed an attribute, exceptions item by item, the frame of the text, the places and flags that are read, separators and terms, files as texts, what can be written, what is read, which exception is raised, the layout of lines and blanks, expressions with values of the right kinds, and equality |
| `L_*.v` | lemmas and proofs |
| `Fixtures_*.v` | the unit tests of the source, run on the model |
| `Properties_*.v` | the property theorems only, each closed by `exact`, with `Print Assumptions` and examples |

`Properties_Parser` C01-C08, `_Lexer` C40, `_Common` .. `_Wks` C09-C28, C30, C34, C36 (by module),
`_File` C31-C33, `_Absent*` C38, `_Swap*` C29, `_Gather*` C37, `_Dict` and `_Misc` C30 and C39,
`_Settle` C35, `_Pick*` C41, `_Local` C42, `_Layout` C43, `_Place` C44 (and the
last cases of C41), `_Flag` C45, `_Lines` C46, `_Write` C47, `_Accept` C48,
`_Raise` C49, `_Tidy` C50, `_Typed` C51, `_Equal` C52, `_Distinct` C53, `_Edit*` C54, `_Bare` C55, `_Same` C56, `_Deep` C57, `_Session*` C58.

The modules that follow the same pattern for every class are written as templates in
`tools/*.vt` and expanded by `tools/gen.py` into `rocq/theories`; the expanded files are committed
and are what is built and checked.

## What is stated

Round trips (C09-C13, C17-C26) have the form (`S_Tree.roundtrips`)

    forall o indent newline, ok o = true ->
      exists s e, X_to o indent newline = Ok s /\ parse_sexp s = Ok e /\ X_from e = Ok (norm o) /\ ...

that is: writing succeeds, the written text parses, and reading it yields the object.  `ok` is
a boolean predicate on the leaves: strings do not end in a backslash, numbers are such that Python
prints them without exponent, strings that are written without quotes are single words that do
not look like a number.  `norm` is the identity on objects whose floats are not integral; where it
is not (2.0 is read as 2), `norm o` equals `o` as Python compares, which is part of the theorem.
Where a class loses or corrupts an attribute, `ok` leaves it out and a theorem
`.._refuted` shows a witness for what happens.

`conforms` (C36) says that the text written consists of exactly the tokens of `X_tree o`, the
expression documented for the class, written down in `S_*.v` independently of the writer.

The statements about readers (C27-C30, C37-C39, C41, C42, C44, C45) do not mention the writer: they quantify over all
expressions that the reader accepts.  `refuses`: every other head is refused. `ignores`: an item
with an unknown head can be put anywhere. `swaps`: neighbouring items may change places unless they
belong to one of the listed groups. `last_wins`: of two items with the same head the later one
counts. `collects`: a list attribute is exactly the items with its head, in order. `absent`: an
attribute whose tokens are missing has the default that is written out in the theorem (the defaults
were compared with the dataclasses of the source by a script). `picks` and `marks` (C41): the value of
an attribute is the one taken from the last token that feeds it. These facts were generated by a
script from the syntax trees of the `from_sexpr` methods, so they compare the model with the source
and not with itself. `itemwise` (C42): further items are accepted exactly if each is accepted alone,
and otherwise the first bad item decides the exception. `stands` and `finds` (C44): an attribute is the
item at a place. `flags` (C45): a flag is set if and only if its word is among the items. Both were
generated from the syntax trees in the same way.

`lays_out` (C43) is about the text and needs no hypothesis on the object: the indentation, one
expression in parentheses, and the line feed.

C31-C33 quantify over all states of the file system, all paths, all encodings (as pairs of partial
functions that satisfy decode (encode s) = s where this is needed) and, for C33, all sequences of
operations.

C40 ties the scanner to Python's regular expressions: `term_regex` is transcribed as a pattern, the
matcher `PyRe.run` lists all ways to match in the order of the backtracking matcher, and the
first one, repeated, gives exactly the scanner's tokens.  `made_of` says that the text consists of the
matched terms with only white space and carets between them.

C46 says that a file is its text: loading is parsing and reading the decoded text with any style of
line breaks, saving puts the encoded text there, for any object and any expression.

C47 gives, for every class, the exact condition under which `to_sexpr` returns a text instead of
raising (`X_writable` in S_Write.v; a class without such a definition has no condition).  Python's
limit on the number of digits in `str(int)` and its recursion limit are not modelled.

C48 gives, for every class, the exact set of expressions for which `from_sexpr` returns an object.
`S_Accept.X_reads` looks at the expression only; the table of each class (head of an item, what the
item must look like) was extracted from the text of `from_sexpr` with Python's `ast` module,
without looking at the model, and then proved to describe the model.  The two sides agreed
everywhere but in one place, where the extraction had missed that the setter of `libId` calls
`re.match` and so needs text.

C49 adds the kind of the exception: `S_Raise.X_raises v` is the exception that `from_sexpr` of X raises
for `v`, `None` if it returns.  It follows the order of evaluation of the source (length test, head,
positional arguments, items from left to right, and in an item the subscripts before the hash of a
dictionary key).  The tables come from the same extraction.  Writing them showed that four readers of
the model (SymbolProjectPath, SymbolProjectInstance, HierarchicalSheetProjectPath,
HierarchicalSheetProjectInstance) lacked the test `len(exp) < 2`, so that they raised IndexError where
the code raises Exception; the model was corrected.

C50 says where the blanks and line breaks of the written text stand.  `S_Tidy.tidy indent newline t` is a
scanner of forty lines that knows nothing of the classes.  The proofs (`L_Tidy.v`) run the same scanner on
the pieces of each text with the indentation counted from that of the object, so that a nested text can be
moved.  `X_neat` excludes the attributes for which the code breaks the layout; each exclusion, and each class
without a theorem, has a witness (`C50_X_refuted`): the render cache of a text, the corners of a turned text
box, curves, the keep-out settings and fill segments of a zone, an empty bus alias, a junction without an
identifier, a comment in a worksheet, and the texts of library tables, bitmaps and worksheet setups.

C51 starts from the expression instead of the object: what `from_sexpr` reads from any expression whose values
are of the right kinds (`S_Typed.X_typed`, a table of heads and kinds per class, no order or completeness
asked for) can be saved with any indentation and loaded again without a difference, and stays the same from
then on.  `X_whole` lists what no single item can ensure.  Most of it is a real loss of data, shown by a text
(`C51_X_refuted`): `locked` of a footprint line, a graphic text and a dimension, `useauxorigin` of the plot
settings, an identifier that was missing, lists of points that were empty, a drill with a second number but
without `oval`.  The rest are defaults that are not of the kind themselves: a file without a version gets the
version as text, a footprint without `tedit` gets the clock.  SyCurve and WksPosition have no theorem, as
their writers do not give what their readers take.

C52 shows that the equality used throughout (`X_eqb`, dataclass `==`: every attribute, numbers by value) is an
equivalence relation, so that "equal" may be chained.  It is finer than Python's in one point: dictionaries
are compared with their order.  C53: two printable objects whose texts are the same expression are equal.

C54 (`S_Edit.v`) is about a program that edits an object: an attribute of a printable object is set to a
value that fits, the object is saved and loaded.  The attribute then has the new value, and with the old value
put back the object equals the first, so nothing else has changed.  Any number of edits in any order gives an
object that is saved and loaded without loss.  The table `X_edits` of each of the 106 classes lists the
attributes (711) and the values that fit; what fits may depend on the object, where two attributes are only
saved together.  Left out are the path of a file, which is not saved, and six attributes whose edit is lost
or makes the text unreadable; each of these has a `_refuted` theorem.

C55 is about the objects made without arguments.  77 of the 106 classes give an object with the stated text
that comes back equal from any indentation.  The other 29 do not: five raise, fifteen write a text that their own
reader rejects, nine come back as a different object.  `tools/defaults.py` compares the attributes and
default values of all classes in the source with the records of the model (it parses the source and does not run it).

C56 (`S_Same.v`) pins down the `==` that the other theorems use: for each of the 112 classes it is the conjunction over
the list `X_attrs` of its attributes, and that list is complete, because objects identical in all of them are
identical.  Items of lists that mix classes (9 such lists) are equal only if they are of the same class.  An `==` that forgets an attribute would make the round trips weaker without any of them failing.

C57 (`S_Deep.v`) carries C54 to parts of objects: the table `part` says where the objects of another class stand inside an
object (an attribute, an optional attribute, an element of a list, a class in a mixed list; 168 lines), `inside` are
the places reached in any number of such steps, for instance the net of the third pad of a footprint of a board.  An
attribute of what stands in such a place is edited, the whole is saved and loaded: the part has the new value, and
nothing else has changed in the part or outside of it.  Not in the table are 16 attributes whose objects must satisfy
more than their class requires (the stroke of a footprint shape, which is tied to its width; the name and file of a
sheet); these are edited as a whole by C54.

C58 (`S_Session.v`) is about sessions: any sequence of edits as in C57, of saves with any arguments, and of loads, each edit
made to the object as it is at that moment.  The end is equal to what the same edits give without saves and loads,
and a further save and load works.  The theorem needs more than C57: equal objects must stay equal under
the same edit (the last law in `lawful`, L_Edit.v).  As in C54, an object is saved and loaded as text; C31 connects the text to files.

## Trusted base

* Coq's kernel (8.16.1), with the virtual machine used for `vm_compute` in examples and witnesses.
* The faithfulness of the model, argued by the citation at each definition.
* No axioms.  `Print Assumptions` says "Closed under the global context" for every theorem of
  every `Properties_*.v` (1000+ theorems).  A checker that lists every loaded file may
  show the axioms of `Coq.ssr.ssrunder`, which come with the standard library; no theorem depends on
  them.

## How the model was compared with the code

* The facts about readers (C29, C38, C41, C44, C45, C48, C49) were extracted from the syntax trees of the source
  by scripts that do not look at the model.
* The unit tests of the source load a file, perhaps change it, save it and compare the result byte by byte
  with a recorded one.  `tools/fixtures.py` turns each of these 73 tests into an example about the model
  (`Fixtures_*.v`): the model writes exactly the recorded bytes.  The 19 largest (more than 8 kB) are left
  out of the build to save time; they were run and agree.  These are tests of the model,
  not claims.

## Simplifications in the model

* An attribute that the class annotates as an object or a list of objects is typed as such: an
  object whose `effects` is the string "x" is not representable.  Attributes holding leaves are
  untyped (`val`), any Python leaf or list of leaves may be there.
* `str()` of a list (inside f-strings) is modelled by `repr_str`, which does not produce Python's
  escapes for non-printable characters; no round trip relies on it.
* Python's limit of 4300 digits in `int(str)` and `str(int)` is not modelled.
* The default of `Footprint.tedit` is computed from the clock when the module is imported: the readers of
  `Footprint` and `Board` take it as the parameter `now`, and all theorems hold for every `now`.
* `float(x)` of a text in `PlotSettings` raises ValueError in the model for every text.
* The exception classes are kept, the messages are not.
* Paths are strings; a `filePath` that is no string is refused with TypeError (Python would take
  an int as a file descriptor).
* A write that was accepted reaches the disk; line feeds are written as they are (POSIX); reading
  translates CR LF and CR to LF.
* `re.finditer` after an empty match (unreachable, `C40_matches_advance`).
* Mutable aliasing: objects are values.  An object that occurs twice in a list is two equal objects;
  setting an attribute through one of them is not seen through the other.

## Not modelled

Memory limits and recursion depth, `-O` (assertions are assumed enabled), subclasses and monkey
patching, the debug flag `dbg` of the parser, operating system errors other than "cannot be
opened", concurrent changes of files, the clock, docstrings.

## Findings

What the proofs showed about the code.  Each one with a theorem name is machine-checked; the
others are visible in the definitions cited.

Parser (`utils/sexpr.py`)
* `^` is dropped and splits words (C08); numbers are only recognised before a space or `)`, so a line
  break behind a number turns it into text (`C03_newline_behind_number_refuted`).
* `+5`, `.5`, `1e-07` are read as text; Unicode digits are read as numbers.
* Text that ends in a backslash swallows what follows (`C04_trailing_backslash_refuted`).
* Integers beyond 2^53 are rounded (C05); floats printed with an exponent come back as text (C06).
* Only the first of several expressions is returned (C07); an empty text is an IndexError (C01).

Common items
* A numeric-looking `tstamp`/`uuid` is read as a number: leading zeros are lost.
* `C09_group_named_locked_refuted`, `C09_page_size_lost_refuted` (size only written for "User"),
  `C09_render_cache_id_refuted`, `C09_render_cache_empty_text_refuted`, `C09_color_precision_refuted`.
* `C43_Rule_refuted`, `C43_ZonePolygon_refuted`, `C43_FilledPolygon_refuted`, `C43_FillSegments_refuted`: the parameter
  `newline` of to_sexpr is ignored.
* The first save of an object may differ from the second (`C35_Font_first_save_refuted`: `1.0` becomes `1`).

Library tables, design rules
* `C10_unknown_type_refuted`, `C11_needs_wrapping_refuted` (the text written is no single expression),
  `C11_numeric_element_refuted`, `C11_severity_words_refuted`.

Symbols
* `C12_SyCurve_refuted`: `SyCurve.to_sexpr` is unbalanced, so a library with a curve cannot be read again
  (`C13_curve_refuted`); `C13_pin_names_refuted`, `C13_default_lib_refuted`.
* `C14_lossy_refuted`, `C14_nickname_with_unit_refuted`: identifiers that do not survive set and get.
* `(pin_numbers)` without arguments raises IndexError; a symbol without a name writes `(symbol "None")`.

Footprints
* `C16_parts_refuted`; `C17_FpLine_locked_refuted`, `C17_FpRect_both_refuted`, `C17_FpRect_neither_refuted`,
  `C17_FpPoly_empty_refuted`, `C17_FpCurve_empty_refuted`, `C17_FpTextBox_pts_refuted`.
* `C18_Attributes_type_refuted`, `C29_Attributes_refuted` (the type is only read in the first place),
  `C18_Drill_width_refuted`, `C18_Drill_offset_refuted`, `C18_Drill_oval_refuted`, `C18_Pad_number_refuted`,
  `C18_Pad_locked_refuted`, `C18_Footprint_name_refuted`, `C18_Footprint_tedit_refuted`.
* `C33_Footprint_refuted`: `Footprint.from_file` does not set `filePath`, so `to_file()` raises.

Board items
* `C19_*_refuted`: GrText loses `locked` and `knockout`, GrLine its angle, strokes are ignored by items that
  have a width, an empty GrPoly/GrCurve is unreadable.
* `C20_*_refuted`: fill settings without `yes`, polygons without points.
* `C21_Dimension_locked_refuted`, `C21_Dimension_tstamp_refuted`, `C21_Dimension_layer_refuted`.
* `C22_PlotSettings_aux_refuted` (`useAuxOrigin` is always read as false), `C22_PlotSettings_pen_refuted`,
  `C22_default_refuted`, `C22_Target_tstamp_refuted`, `C22_Stackup_flags_refuted`.
* `C23_module_refuted` (footprints headed `module` are silently dropped), `C23_default_refuted` (a default Board()
  writes a file that cannot be read).

Schematics
* `C24_Junction_diameter_refuted`, `C24_Junction_order_refuted`, `C29_Junction_refuted`: reading a junction's diameter
  overwrites its colour or is overwritten, depending on the order.
* `C24_NetclassFlag_default_refuted`, `C24_SchematicSymbol_none_refuted`, `C24_HierarchicalSheet_precision_refuted`,
  `C24_HierarchicalSheet_alpha_refuted`, `C24_HierarchicalSheet_key_refuted`.

Work sheets
* `C26_TbText_justify_refuted`, `C26_polygon_refuted` (polygons raise NotImplementedError), `C26_Bitmap_data_refuted`.

Files
* `C32_*_refuted`: every `to_file` truncates the target before `to_sexpr()` runs, so a failing save destroys the file.
* `C31_carriage_return_refuted`, `C31_WorkSheet_encoding_refuted` (`WorkSheet.to_file` has no encoding).

## Testing the theorems against wrong programs

`seeded/LOG.jsonl` lists edits of the model that a programmer could make by mistake, the claim
each one breaks and the theorems that failed.  Edits that leave all claims true (white space
between tokens, code that no input reaches) are marked as such.
