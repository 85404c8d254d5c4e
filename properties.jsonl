{"id": "C01", "title": "The parser has exactly three outcomes, decided by the bracket structure", "statement": "parse_sexp on any text either returns a value, or raises AssertionError, or raises IndexError, and nothing else. It raises AssertionError exactly when the brackets outside quoted strings are unbalanced (some prefix closes more than it opens, or something is still open at the end), IndexError exactly when they are balanced but the text holds no expression, and returns a value otherwise.", "quantifier": "every text (any finite sequence of Unicode code points)", "why_tests_cant": "the set of texts is infinite and the tokeniser is a backtracking regular expression; tests only sample well formed files", "anchors": ["src/kiutils/utils/sexpr.py:parse_sexp", "src/kiutils/utils/sexpr.py:term_regex"]}
{"id": "C02", "title": "Parsing inverts writing for every expression tree", "statement": "If a nested list of strings and numbers is written out as an S-expression (strings quoted or as bare words, numbers as printed by Python, with any non-empty white space between the elements and any white space around the brackets), parse_sexp returns exactly that nested list: same nesting, same order, same values, same types.", "quantifier": "every finite tree of any depth and width whose leaves can be printed (texts not ending in a backslash, bare words, numbers in positional notation), every choice of white space", "why_tests_cant": "unbounded depth, width, text and layout", "anchors": ["src/kiutils/utils/sexpr.py:parse_sexp", "src/kiutils/utils/strings.py:dequote"]}
{"id": "C03", "title": "Layout does not matter", "statement": "Adding or changing white space between two tokens of a document, other than directly behind a number, does not change what parse_sexp returns for it; in particular the indent and newline arguments of every to_sexpr() never change what the written text means.", "quantifier": "every document, every position between tokens, every white space", "why_tests_cant": "infinitely many documents and layouts", "anchors": ["src/kiutils/utils/sexpr.py:parse_sexp"]}
{"id": "C04", "title": "Quoted text survives", "statement": "For every text value, writing it in quotes with dequote() and parsing it again gives back the same text, whatever characters it holds (quotes, brackets, line breaks, backslashes, digits, non-ASCII), provided it does not end in a backslash; a text that ends in a backslash corrupts the document.", "quantifier": "every finite sequence of Unicode code points", "why_tests_cant": "escaping bugs show only on particular character combinations next to each other", "anchors": ["src/kiutils/utils/strings.py:dequote", "src/kiutils/utils/sexpr.py:parse_sexp"]}
{"id": "C05", "title": "Integers survive", "statement": "Every integer of magnitude at most 2^53 that is written unquoted in front of a space or closing bracket is read back as the same integer; larger ones come back rounded to the nearest double.", "quantifier": "every integer", "why_tests_cant": "the domain is infinite and the failures begin at 2^53", "anchors": ["src/kiutils/utils/sexpr.py:parse_sexp"]}
{"id": "C06", "title": "Floating point numbers survive", "statement": "Every finite double that Python prints in positional notation (0 or 1e-4 <= |x| < 1e16) is, when written unquoted in front of a space or closing bracket, read back as an equal number (an int when it is integral, the bit-identical float otherwise); every other finite double comes back as a string.", "quantifier": "every finite IEEE-754 binary64 value", "why_tests_cant": "2^64 values; depends on correctly rounded reading and shortest printing", "anchors": ["src/kiutils/utils/sexpr.py:parse_sexp"]}
{"id": "C07", "title": "Only the first expression of a text counts", "statement": "When a text holds several top level expressions, parse_sexp returns the first one and the others have no influence on it, as long as all of them are balanced.", "quantifier": "every text that is a concatenation of balanced expressions", "why_tests_cant": "unbounded number and size of expressions", "anchors": ["src/kiutils/utils/sexpr.py:parse_sexp"]}
{"id": "C08", "title": "Unquoted words survive", "statement": "Every non-empty word without white space, brackets, caret and leading quote that does not look like a number is read back unchanged as a string when written unquoted; a caret is silently dropped and splits the word, and a word that looks like a number becomes a number.", "quantifier": "every word", "why_tests_cant": "infinitely many words; failures hide in single characters", "anchors": ["src/kiutils/utils/sexpr.py:term_regex"]}
{"id": "C09", "title": "Elementary items round-trip", "statement": "For Coordinate, ColorRGBA, Stroke, Font, Justify, Effects, Net, Group, PageSettings, TitleBlock, Property, Fill, Image, RenderCache(Polygon): from_sexpr(parse_sexp(x.to_sexpr(indent, newline))) equals x.", "quantifier": "every object whose leaves are printable (texts not ending in a backslash, bare words where the format writes bare words, printable numbers), every combination of optional parts, every list length, every indent and newline flag", "why_tests_cant": "the written text depends on the combination of all optional parts, list lengths and leaf values, which is infinite", "anchors": ["src/kiutils/items/common.py"]}
{"id": "C10", "title": "Library tables round-trip", "statement": "A LibTable with its Library entries that is written and read again gives an equal table, for both kinds fp_lib_table and sym_lib_table, and every other head is rejected on reading.", "quantifier": "every table, any number of libraries, all printable field values", "why_tests_cant": "the written text depends on the combination of all optional parts, list lengths and leaf values, which is infinite", "anchors": ["src/kiutils/libraries.py:LibTable", "src/kiutils/libraries.py:Library"]}
{"id": "C11", "title": "Design rule files round-trip", "statement": "A DesignRules object (version, rules with constraints, layer, condition, severity) that is written and read again as from_file() reads it gives an equal object.", "quantifier": "every rule set, any number of rules, constraints and constraint elements", "why_tests_cant": "the written text depends on the combination of all optional parts, list lengths and leaf values, which is infinite", "anchors": ["src/kiutils/dru.py"]}
{"id": "C12", "title": "Symbol graphics round-trip", "statement": "SyArc, SyCircle, SyRect, SyPolyLine, SyText, SyTextBox and SymbolPin with its alternate names round-trip; SyCurve does not: everything it writes is unbalanced.", "quantifier": "every printable object", "why_tests_cant": "the written text depends on the combination of all optional parts, list lengths and leaf values, which is infinite", "anchors": ["src/kiutils/items/syitems.py"]}
{"id": "C13", "title": "Symbols and symbol libraries round-trip", "statement": "A Symbol with all its properties, graphic items, pins and (recursively) units, and a SymbolLib holding any number of symbols, give equal objects when written and read again.", "quantifier": "every printable symbol tree of any nesting depth and width", "why_tests_cant": "the written text depends on the combination of all optional parts, list lengths and leaf values, which is infinite", "anchors": ["src/kiutils/symbol.py"]}
{"id": "C14", "title": "Setting a symbol's library id and reading it gives the same id", "statement": "After symbol.libId = s, symbol.libId returns s for every library identifier s of the form [nickname:]name[_unit_style] in KiCad's grammar; the exceptions (leading zeros in the unit ids, unit ids together with a nickname, trailing line break) are exactly characterised.", "quantifier": "every string", "why_tests_cant": "the split is done by two lazy regular expressions; the failures are in corner cases", "anchors": ["src/kiutils/symbol.py:Symbol.libId"]}
{"id": "C15", "title": "Renaming a symbol renames its units", "statement": "Setting libId on a symbol sets entryName on each of its direct units to the new entry name and leaves the unit and style ids, and everything else, of symbol and units as it was.", "quantifier": "every symbol, every number of units, every string", "why_tests_cant": "unbounded number of units and histories of renames", "anchors": ["src/kiutils/symbol.py:Symbol.libId"]}
{"id": "C16", "title": "Footprint library id set and get", "statement": "After footprint.libId = s, footprint.libId returns s for every s that is 'nickname:name' or a colon-free name.", "quantifier": "every string", "why_tests_cant": "infinitely many strings", "anchors": ["src/kiutils/footprint.py:Footprint.libId"]}
{"id": "C17", "title": "Footprint graphics round-trip", "statement": "FpText, FpLine, FpRect, FpTextBox, FpCircle, FpArc, FpPoly and FpCurve give an equal object when written and read again, except for the fields that are provably lost (FpLine.locked; stroke when width is also set).", "quantifier": "every printable object", "why_tests_cant": "the written text depends on the combination of all optional parts, list lengths and leaf values, which is infinite", "anchors": ["src/kiutils/items/fpitems.py"]}
{"id": "C18", "title": "Pads, attributes, models, drills and footprints round-trip", "statement": "Attributes, Model, DrillDefinition, PadOptions, Pad, FpText children and a Footprint with any number of graphic items, pads, zones, groups, properties and 3D models give equal objects when written and read again.", "quantifier": "every printable footprint", "why_tests_cant": "the written text depends on the combination of all optional parts, list lengths and leaf values, which is infinite", "anchors": ["src/kiutils/footprint.py"]}
{"id": "C19", "title": "Board graphics round-trip", "statement": "GrText, GrTextBox, GrLine, GrRect, GrCircle, GrArc, GrPoly and GrCurve round-trip, except for the provably lost or corrupting cases (locked GrText, GrLine with an angle, KiCad 7 strokes).", "quantifier": "every printable object", "why_tests_cant": "the written text depends on the combination of all optional parts, list lengths and leaf values, which is infinite", "anchors": ["src/kiutils/items/gritems.py"]}
{"id": "C20", "title": "Zones round-trip", "statement": "A Zone with its hatch, keepout and fill settings, polygons, filled polygons and fill segments gives an equal object when written and read again; a zone without layers is refused with an exception.", "quantifier": "every printable zone, any number of polygons, points and layers", "why_tests_cant": "the written text depends on the combination of all optional parts, list lengths and leaf values, which is infinite", "anchors": ["src/kiutils/items/zones.py"]}
{"id": "C21", "title": "Dimensions round-trip", "statement": "A Dimension with its format and style gives an equal object when written and read again, except for the provably lost locked flag.", "quantifier": "every printable dimension", "why_tests_cant": "the written text depends on the combination of all optional parts, list lengths and leaf values, which is infinite", "anchors": ["src/kiutils/items/dimensions.py"]}
{"id": "C22", "title": "Board setup and items round-trip", "statement": "GeneralSettings, LayerToken, StackupLayer with sub layers, Stackup, PlotSettings, SetupData, Segment, Via, Arc and Target give an equal object when written and read again, except for provably lost fields (PlotSettings.useAuxOrigin).", "quantifier": "every printable object", "why_tests_cant": "the written text depends on the combination of all optional parts, list lengths and leaf values, which is infinite", "anchors": ["src/kiutils/items/brditems.py"]}
{"id": "C23", "title": "Boards round-trip", "statement": "A Board with any number of layers, properties, nets, footprints, graphic items, dimensions, targets, trace items, zones and groups gives an equal board when written and read again.", "quantifier": "every printable board", "why_tests_cant": "the written text depends on the combination of all optional parts, list lengths and leaf values, which is infinite", "anchors": ["src/kiutils/board.py"]}
{"id": "C24", "title": "Schematic items round-trip", "statement": "Junction, NoConnect, BusEntry, Connection, BusAlias, PolyLine, Text, TextBox, labels, SchematicSymbol, HierarchicalPin, HierarchicalSheet with project instances, sheet and symbol instances, Rectangle, Arc, Circle and NetclassFlag give an equal object when written and read again, except for the provably lost fields (Junction.diameter).", "quantifier": "every printable object", "why_tests_cant": "the written text depends on the combination of all optional parts, list lengths and leaf values, which is infinite", "anchors": ["src/kiutils/items/schitems.py"]}
{"id": "C25", "title": "Schematics round-trip", "statement": "A Schematic with any number of items of every kind gives an equal schematic when written and read again.", "quantifier": "every printable schematic", "why_tests_cant": "the written text depends on the combination of all optional parts, list lengths and leaf values, which is infinite", "anchors": ["src/kiutils/schematic.py"]}
{"id": "C26", "title": "Work sheets round-trip", "statement": "A WorkSheet with its setup and any number of lines, rectangles, texts and bitmaps gives an equal work sheet when written and read again.", "quantifier": "every printable work sheet", "why_tests_cant": "the written text depends on the combination of all optional parts, list lengths and leaf values, which is infinite", "anchors": ["src/kiutils/wks.py"]}
{"id": "C27", "title": "Wrong expressions are refused", "statement": "from_sexpr of every class raises when given a value that is not a list or a list whose head is not the token of that class; it never returns an object for it.", "quantifier": "every parsed value", "why_tests_cant": "infinitely many values", "anchors": ["src/kiutils/items/common.py", "src/kiutils/symbol.py", "src/kiutils/footprint.py", "src/kiutils/board.py", "src/kiutils/schematic.py", "src/kiutils/wks.py"]}
{"id": "C28", "title": "Unknown tokens are ignored", "statement": "Inserting a child list with an unknown head anywhere behind the positional arguments of an expression does not change the object that from_sexpr builds.", "quantifier": "every expression, every position, every unknown child", "why_tests_cant": "infinitely many extensions", "anchors": ["src/kiutils/items/common.py", "src/kiutils/symbol.py", "src/kiutils/schematic.py", "src/kiutils/board.py"]}
{"id": "C29", "title": "Order of children is irrelevant", "statement": "Exchanging two neighbouring items of an accepted expression, anywhere behind its positional arguments, does not change the object that from_sexpr builds, unless both belong to the same of the listed groups of tokens (those that feed one attribute: equal tokens, graphic items, trace items, width/stroke, layer/layers, micro/blind, a junction's color/diameter). Refuted for attr, whose type counts only in first place, and for a junction's color and diameter as separate tokens.", "quantifier": "every class with child tokens, every accepted expression, every pair of adjacent items", "why_tests_cant": "factorially many orders", "anchors": ["src/kiutils/items/common.py", "src/kiutils/items/brditems.py", "src/kiutils/items/zones.py", "src/kiutils/footprint.py", "src/kiutils/board.py", "src/kiutils/schematic.py", "src/kiutils/symbol.py", "src/kiutils/wks.py"]}
{"id": "C30", "title": "Repeated tokens: the last one wins", "statement": "When a single-valued token occurs several times the last occurrence determines the attribute. Title block comments, board and footprint properties and the pins of a schematic symbol become dictionaries whose keys are in the order of their first occurrence (equal keys in Python's sense, so 1 and 1.0 are one key), each with the value given last.", "quantifier": "every sequence of occurrences", "why_tests_cant": "unbounded number of repetitions", "anchors": ["src/kiutils/items/common.py:TitleBlock", "src/kiutils/board.py", "src/kiutils/footprint.py"]}
{"id": "C31", "title": "Saving and loading a file gives the same object", "statement": "to_file(path) followed by from_file(path) with the same encoding yields an equal object with filePath set to path (Footprint: filePath stays None), and leaves every other file untouched, for every object whose text has no carriage return and can be encoded. from_file raises if the file does not exist, cannot be opened or cannot be decoded. WorkSheet.to_file always uses the platform encoding.", "quantifier": "every printable object of the seven file classes, every path, every encoding whose decoder inverts its encoder, every previous state of the file system", "why_tests_cant": "unbounded objects and file system states", "anchors": ["src/kiutils/symbol.py:SymbolLib.to_file", "src/kiutils/board.py:Board.to_file", "src/kiutils/schematic.py:Schematic.to_file"]}
{"id": "C32", "title": "What a save can destroy", "statement": "to_file() touches no file but its target, and nothing at all when there is no target or the target cannot be opened for writing. But the target is opened before the text is made: whenever to_sexpr() raises or the text cannot be encoded, to_file() raises and the previous contents of the target are lost (the expectation that a failed save keeps the file is refuted).", "quantifier": "every object of the seven file classes, every path, every encoding, every file system state", "why_tests_cant": "needs the failing object and the crash point together", "anchors": ["src/kiutils/board.py:Board.to_file", "src/kiutils/footprint.py:Footprint.to_file", "src/kiutils/wks.py:WorkSheet.to_file", "src/kiutils/schematic.py:Schematic.to_file"]}
{"id": "C33", "title": "Saving without a path uses the path the object was loaded from", "statement": "After from_file(p) and any sequence of edits and saves, to_file() without a path does what to_file(p) does, and the only files touched in between are p and the paths that were given. An object whose filePath is None raises and changes no file. Refuted for Footprint, whose from_file does not set filePath, so that to_file() without a path always raises.", "quantifier": "every file class, every history of load, edit and save operations", "why_tests_cant": "histories are unbounded", "anchors": ["src/kiutils/symbol.py", "src/kiutils/footprint.py:Footprint.from_file", "src/kiutils/board.py"]}
{"id": "C34", "title": "Objects made by create_new() are valid", "statement": "create_new() of each file class gives an object that can be written, and the text it writes can be read again and gives an object equal up to the documented number/string change of the version.", "quantifier": "every name, value and argument accepted by create_new", "why_tests_cant": "arguments are arbitrary strings", "anchors": ["src/kiutils/board.py:Board.create_new", "src/kiutils/schematic.py:Schematic.create_new", "src/kiutils/symbol.py:Symbol.create_new", "src/kiutils/footprint.py:Footprint.create_new"]}
{"id": "C35", "title": "Saving what was read settles after one step", "statement": "Let s1 be the text written for an object that can be written readably (in particular one that from_sexpr gave). Reading s1 and writing the result gives a text s2 with the same tokens, standing for the same expression; reading and writing s2 gives s2 to the letter, however often. If reading s1 gives exactly the object that was written (no integral float turned into an int), s2 is s1. A save with another indentation or line break flag does not change the tokens either. The stronger claim that s2 is always s1 is false (a font read without a size is written with 1.0, then with 1).", "quantifier": "every class, every writable object, every indentation and line break flag", "why_tests_cant": "needs all inputs", "anchors": ["src/kiutils/items/common.py"]}
{"id": "C36", "title": "The written text has the documented shape", "statement": "For every class and every printable object, whatever the indentation and newline flag, the text that to_sexpr() writes consists of exactly the tokens of the expression documented for that class (given as an independent tree specification), and from_sexpr() maps this expression to the object.", "quantifier": "every class, every printable object, every indentation", "why_tests_cant": "the written text depends on the combination of all optional parts, list lengths and leaf values, which is infinite", "anchors": ["src/kiutils/items/common.py", "src/kiutils/symbol.py", "src/kiutils/footprint.py", "src/kiutils/board.py", "src/kiutils/schematic.py", "src/kiutils/wks.py"]}
{"id": "C37", "title": "List attributes hold every matching child in order", "statement": "For every list attribute filled by from_sexpr (points, layers, pads, footprints, graphic items, wires, units, ...): whatever else the expression contains and however the children are interleaved, the attribute has exactly one element for every child with the matching head (or for every argument of such children), in the order of the children, each read by the reader that belongs to its head. Nothing is lost, duplicated, reordered or read by another class.", "quantifier": "every expression that the reader accepts", "why_tests_cant": "needs all numbers and interleavings of children", "anchors": ["src/kiutils/board.py:Board.from_sexpr", "src/kiutils/schematic.py:Schematic.from_sexpr", "src/kiutils/footprint.py:Footprint.from_sexpr", "src/kiutils/symbol.py:Symbol.from_sexpr", "src/kiutils/wks.py:WorkSheet.from_sexpr"]}
{"id": "C38", "title": "A missing token leaves the documented default", "statement": "When none of the tokens that feed an attribute occurs in an expression that from_sexpr accepts, that attribute of the resulting object has the default value given in its dataclass, written out literally in the theorem; attributes that no token feeds (such as filePath, GrLine.angle, Junction.diameter) always have it.", "quantifier": "every class, every attribute that is not positional, every accepted expression, whatever its other children", "why_tests_cant": "the other children of the expression are arbitrary", "anchors": ["src/kiutils/items/common.py", "src/kiutils/items/brditems.py:PlotSettings", "src/kiutils/items/zones.py:Zone", "src/kiutils/footprint.py:Pad", "src/kiutils/board.py", "src/kiutils/schematic.py"]}
{"id": "C39", "title": "Positional expressions: exactly what is accepted and what it means", "statement": "Coordinate, ColorRGBA, TextSize, WksFontSize, LayerToken, BusAlias, Net, SymbolAlternativePin, Position, WksPosition and PageSettings accept exactly the expressions of the documented positional shape (head where it is tested, number of items, sub-lists) and give exactly the object with the items in the documented attributes; everything else raises.", "quantifier": "every expression (if and only if)", "why_tests_cant": "needs all expressions, including all the rejected ones", "anchors": ["src/kiutils/items/common.py", "src/kiutils/items/brditems.py:LayerToken", "src/kiutils/items/schitems.py:BusAlias", "src/kiutils/wks.py"]}
{"id": "C40", "title": "The parser reads exactly the matches of term_regex", "statement": "For every text, the terms that re.finditer(term_regex, text) yields under Python's backtracking semantics (greedy repetition, prioritised alternatives, lookahead and lookbehind), classified by the first non-empty named group and converted as in the loop of parse_sexp, are exactly the tokens of the direct scanner used in all other properties; no match is empty or without a named group, so the branches raising IndexError at the group selection and NotImplementedError are dead. Nothing of the text is lost: apart from the matched terms it consists of white space (exactly the 29 characters of str.isspace()) and carets only.", "quantifier": "every text", "why_tests_cant": "the regular expression backtracks; equivalence has to hold for every text, including escaped quotes, Unicode digits and white space", "anchors": ["src/kiutils/utils/sexpr.py:term_regex", "src/kiutils/utils/sexpr.py:parse_sexp"]}
{"id": "C41", "title": "Every attribute comes from the last token that feeds it", "statement": "For every class and every attribute that a from_sexpr method fills from a token: if the last of the tokens feeding the attribute is the list (k ...), the attribute has exactly the value the source takes from that list (the n-th item, a comparison of the n-th item with a word, the result of a sub-class's from_sexpr, or a constant), whatever precedes it and whatever unrelated items follow; the same for bare words. The 558 facts were generated from the syntax trees of the Python source, not from the model.", "quantifier": "every accepted expression of every class, every attribute fed by a token", "why_tests_cant": "needs all expressions with any items before and after the token", "anchors": ["src/kiutils/items", "src/kiutils/footprint.py", "src/kiutils/board.py", "src/kiutils/schematic.py", "src/kiutils/symbol.py", "src/kiutils/wks.py"]}
{"id": "C42", "title": "Readers fail item by item", "statement": "Behind any accepted expression, a reader accepts further items exactly if it accepts each of them alone; otherwise it raises the exception of the first item that is not accepted. In particular acceptance of an item does not depend on the items before it, on how often it occurs or on the state of the object. The reader of a stackup layer is the one exception: what is refused in the layer may be accepted behind addsublayer.", "quantifier": "every accepted expression and every list of further items, for 98 classes", "why_tests_cant": "needs all combinations of items", "anchors": ["src/kiutils/items", "src/kiutils/footprint.py", "src/kiutils/board.py", "src/kiutils/schematic.py", "src/kiutils/symbol.py", "src/kiutils/wks.py"]}
{"id": "C43", "title": "The parameters indent and newline of to_sexpr do what is documented", "statement": "If an object can be written, the text is exactly indent blanks, one expression in parentheses, and a line feed exactly if newline is set; newline makes no other difference. Classes without content write a blank line or nothing, as stated. Rule, ZonePolygon, FilledPolygon and FillSegments end the line even if newline is not set (refuted).", "quantifier": "every object, indentation and newline flag, for 105 classes", "why_tests_cant": "needs all objects and all indentations", "anchors": ["src/kiutils/items", "src/kiutils/footprint.py", "src/kiutils/board.py", "src/kiutils/schematic.py", "src/kiutils/symbol.py", "src/kiutils/wks.py"]}
{"id": "C44", "title": "Attributes read from a fixed place", "statement": "In every accepted expression the positional attributes are exactly the items at the documented places, whatever else the expression contains: the text behind the flag of a text box, the angle of a position unless the word unlocked stands there, the size of the paper for the size User only. The identifiers of symbols and footprints are taken apart from the first argument, and no later token changes them.", "quantifier": "every expression that is accepted, 50 classes", "why_tests_cant": "needs all expressions, with any further tokens in any order", "anchors": ["src/kiutils/items/common.py", "src/kiutils/items/schitems.py", "src/kiutils/items/fpitems.py", "src/kiutils/items/gritems.py", "src/kiutils/items/brditems.py", "src/kiutils/footprint.py", "src/kiutils/symbol.py", "src/kiutils/wks.py"]}
{"id": "C45", "title": "A flag is set exactly when its word is there", "statement": "A boolean attribute that is set by a word or token is true if and only if that word or token occurs among the items the reader looks at; a list with the same head does not count as the word, nor the word as the list.", "quantifier": "every expression that is accepted, 46 classes", "why_tests_cant": "needs all expressions", "anchors": ["src/kiutils/items", "src/kiutils/footprint.py", "src/kiutils/symbol.py", "src/kiutils/wks.py"]}
{"id": "C46", "title": "A file is its text", "statement": "Loading a file gives exactly what parsing and reading its decoded text gives (objects as well as exceptions), with line breaks written as LF, CR LF or CR in any mixture, and depends on nothing else but the path; saving any object that can be written puts exactly its encoded text into the target and changes nothing else.", "quantifier": "every file system, path, encoding, text, mixture of line breaks and object, 7 file classes", "why_tests_cant": "needs all texts, encodings and file systems", "anchors": ["src/kiutils/libraries.py:LibTable.from_file", "src/kiutils/board.py:Board.from_file", "src/kiutils/schematic.py:Schematic.from_file", "src/kiutils/symbol.py:SymbolLib.from_file", "src/kiutils/footprint.py:Footprint.from_file", "src/kiutils/wks.py:WorkSheet.from_file", "src/kiutils/dru.py:DesignRules.from_file"]}
{"id": "C47", "title": "Exactly which objects can be written", "statement": "For every class, to_sexpr returns a text exactly when a stated condition on the attributes holds, whatever the indentation and newline arguments; most classes have no condition. The conditions: a colour with a precision needs a non-negative precision and a number that fits a float; a page of size User needs width and height; the elements of a design rule constraint must be text; a zone needs a layer; the names of pad layers must be text; a dimension needs points; an upright text box needs two corners and a turned one four points; three plot settings must be numbers; the text of a schematic text must have a length; a junction must have a colour, a netclass flag effects; worksheet polygons have no writer; and an object can be written exactly when the parts it writes can.", "quantifier": "every object of every class, every indentation and newline argument", "why_tests_cant": "a test can show that some objects are written, not that no other object makes the writer raise, nor that a condition is the exact one", "anchors": ["src/kiutils/items/common.py:ColorRGBA.to_sexpr", "src/kiutils/items/common.py:PageSettings.to_sexpr", "src/kiutils/items/zones.py:Zone.to_sexpr", "src/kiutils/items/fpitems.py:FpTextBox.to_sexpr", "src/kiutils/items/gritems.py:GrTextBox.to_sexpr", "src/kiutils/items/dimensions.py:Dimension.to_sexpr", "src/kiutils/items/brditems.py:PlotSettings.to_sexpr", "src/kiutils/items/schitems.py:Junction.to_sexpr", "src/kiutils/items/schitems.py:NetclassFlag.to_sexpr", "src/kiutils/footprint.py:Pad.to_sexpr", "src/kiutils/dru.py:Constraint.to_sexpr", "src/kiutils/wks.py:Polygon.to_sexpr"]}
{"id": "C48", "title": "Exactly which expressions are read", "statement": "For every class, from_sexpr returns an object exactly when the expression meets a stated condition that looks at the expression only: it is a list with the right head and enough items in front, and every item behind them is fine: a list has a head, and if the reader knows the head the item has the fields or nested expressions the reader takes from it; items that are not lists pass, or must be non-empty text, depending on the reader. Unknown heads never make a reader fail.", "quantifier": "every parsed value (any nesting, any size) and every class; for boards and footprints also every date", "why_tests_cant": "a test shows that some expressions load and some do not, not that no other expression makes the reader raise", "anchors": ["src/kiutils/items/common.py:Position.from_sexpr", "src/kiutils/items/common.py:PageSettings.from_sexpr", "src/kiutils/items/common.py:TitleBlock.from_sexpr", "src/kiutils/symbol.py:Symbol.from_sexpr", "src/kiutils/footprint.py:Pad.from_sexpr", "src/kiutils/footprint.py:Footprint.from_sexpr", "src/kiutils/items/zones.py:Zone.from_sexpr", "src/kiutils/items/brditems.py:StackupLayer.from_sexpr", "src/kiutils/board.py:Board.from_sexpr", "src/kiutils/schematic.py:Schematic.from_sexpr", "src/kiutils/items/schitems.py:SchematicSymbol.from_sexpr", "src/kiutils/wks.py:WorkSheet.from_sexpr"]}
{"id": "C49", "title": "Exactly which exception a reader raises", "statement": "For every class and every expression, the kind of exception from_sexpr raises (Exception, IndexError, TypeError, NotImplementedError) is the one a stated function of the expression gives, and it raises none where that function gives none: a value that is no list, too short where the length is tested, or with another head gives Exception; the empty list or a missing argument gives IndexError; an item without places, a list as a dictionary key or a library id that is not text gives TypeError; the constructs that are not implemented give NotImplementedError; the first faulty item decides.", "quantifier": "every parsed value (any nesting, any size), every exception kind and every class; for boards and footprints also every date", "why_tests_cant": "a caller that catches one kind of exception relies on every malformed input giving that kind; a test only tries some malformed inputs", "anchors": ["src/kiutils/items/common.py:Position.from_sexpr", "src/kiutils/items/common.py:PageSettings.from_sexpr", "src/kiutils/items/common.py:TitleBlock.from_sexpr", "src/kiutils/symbol.py:Symbol.from_sexpr", "src/kiutils/footprint.py:Pad.from_sexpr", "src/kiutils/footprint.py:Footprint.from_sexpr", "src/kiutils/items/zones.py:Zone.from_sexpr", "src/kiutils/items/brditems.py:StackupLayer.from_sexpr", "src/kiutils/board.py:Board.from_sexpr", "src/kiutils/schematic.py:Schematic.from_sexpr", "src/kiutils/items/schitems.py:SchematicSymbol.from_sexpr", "src/kiutils/wks.py:WorkSheet.from_sexpr"]}
{"id": "C50", "title": "The layout of the written text", "statement": "For every class whose writer is meant to produce KiCad's layout, the text of every accepted object is laid out without a fault: every line is indented by exactly two blanks for each parenthesis open there (on top of the indentation asked for), a line that starts with a closing parenthesis is aligned with the line of the opening one, items within a line are separated by exactly one blank, no blank stands at the inside of a parenthesis or at the end of a line, the parentheses are balanced at every point, and the text ends with the last parenthesis, or with one line break if newline is asked for. The classes and attributes for which the code does not do this are named: for each there is an object whose text breaks the layout, and for the rest of the objects of that class the layout is proved.", "quantifier": "every object of every class that its own reader could have produced (X_ok), every indentation and newline argument; for whole files indentation 0", "why_tests_cant": "a test compares the text of a few objects; a blank too many or a wrong indentation in a combination of optional attributes that no test has stays unseen", "anchors": ["src/kiutils/items/common.py:Effects.to_sexpr", "src/kiutils/items/common.py:Property.to_sexpr", "src/kiutils/symbol.py:Symbol.to_sexpr", "src/kiutils/footprint.py:Pad.to_sexpr", "src/kiutils/footprint.py:Footprint.to_sexpr", "src/kiutils/items/zones.py:Zone.to_sexpr", "src/kiutils/items/brditems.py:StackupLayer.to_sexpr", "src/kiutils/items/brditems.py:PlotSettings.to_sexpr", "src/kiutils/board.py:Board.to_sexpr", "src/kiutils/schematic.py:Schematic.to_sexpr", "src/kiutils/items/schitems.py:SchematicSymbol.to_sexpr", "src/kiutils/items/dimensions.py:Dimension.to_sexpr", "src/kiutils/dru.py:DesignRules.to_sexpr"]}
{"id": "C51", "title": "What is loaded can be saved and loaded again without loss", "statement": "Whatever from_sexpr reads from an expression whose values are of the right kinds (numbers where numbers are expected, words or texts where those are expected), whether or not this library wrote it, whatever the order, repetition or absence of items and whatever unknown items are mixed in, can be saved with any indentation and newline argument; loading the saved text gives an object equal to the first, and saving and loading that again changes nothing. For classes where an object also has to have all it needs, this is an explicit condition on the object, and for each such class an expression of the right kinds is given for which the object is not saved or comes back changed.", "quantifier": "every expression of the right kinds for every class with a reader and a writer (except SyCurve and WksPosition), every indentation and newline argument", "why_tests_cant": "the tests load files that KiCad wrote in its own order; the input may have any order, repetitions and unknown tokens, and the loss of one attribute shows only in a file that sets it", "anchors": ["src/kiutils/items/common.py:Effects.from_sexpr", "src/kiutils/items/common.py:Property.from_sexpr", "src/kiutils/symbol.py:Symbol.from_sexpr", "src/kiutils/footprint.py:Footprint.from_sexpr", "src/kiutils/items/fpitems.py:FpLine.to_sexpr", "src/kiutils/items/gritems.py:GrText.to_sexpr", "src/kiutils/items/dimensions.py:Dimension.to_sexpr", "src/kiutils/items/brditems.py:PlotSettings.to_sexpr", "src/kiutils/items/zones.py:Zone.from_sexpr", "src/kiutils/board.py:Board.from_sexpr", "src/kiutils/schematic.py:Schematic.from_sexpr", "src/kiutils/wks.py:WorkSheet.from_sexpr"]}
{"id": "C52", "title": "Equality of objects is an equivalence", "statement": "For every class, == of the dataclass (all attributes, numbers compared by value across bool, int and float, nested objects and lists element by element) is reflexive, symmetric and transitive.", "quantifier": "all objects of every class, with any values in any attribute (floats without NaN)", "why_tests_cant": "transitivity across int and float of any size and any nesting is a statement about triples of arbitrary objects", "anchors": ["src/kiutils/items/common.py:Position", "src/kiutils/symbol.py:Symbol", "src/kiutils/footprint.py:Footprint", "src/kiutils/board.py:Board", "src/kiutils/schematic.py:Schematic", "src/kiutils/wks.py:WorkSheet"]}
{"id": "C53", "title": "Different objects have different texts", "statement": "If the texts that to_sexpr gives for two printable objects of a class, each with its own indentation and newline argument, are the same expression, the objects are equal: no difference between two objects disappears when they are written.", "quantifier": "all pairs of printable objects of every class with a round trip, all indentation and newline arguments of both", "why_tests_cant": "it is about all pairs of objects; a writer that leaves out or merges an attribute for some values passes every test that compares one text with one expectation", "anchors": ["src/kiutils/items/common.py:Effects.to_sexpr", "src/kiutils/symbol.py:Symbol.to_sexpr", "src/kiutils/footprint.py:Footprint.to_sexpr", "src/kiutils/items/zones.py:Zone.to_sexpr", "src/kiutils/board.py:Board.to_sexpr", "src/kiutils/schematic.py:Schematic.to_sexpr", "src/kiutils/wks.py:WorkSheet.to_sexpr"]}
{"id": "C54", "title": "An edit survives saving and loading and changes nothing else", "statement": "If an attribute of a printable object is set to a value that fits, and the object is saved with any indentation and loaded again, the attribute has that value and every other attribute is as before; and an object reached by any number of such edits in any order is saved and loaded without loss.", "quantifier": "all printable objects of every class with a round trip, all 711 listed attributes, all values that fit, all sequences of edits, all indentation and newline arguments", "why_tests_cant": "edits are arbitrary values in arbitrary attributes of arbitrary objects; tests edit a handful of attributes of a handful of files, and a writer that drops an attribute for some values, or lets one attribute disturb another, passes them", "anchors": ["src/kiutils/items/common.py:Effects.to_sexpr", "src/kiutils/symbol.py:Symbol.to_sexpr", "src/kiutils/footprint.py:Footprint.to_sexpr", "src/kiutils/items/zones.py:Zone.to_sexpr", "src/kiutils/board.py:Board.to_sexpr", "src/kiutils/schematic.py:Schematic.to_sexpr", "src/kiutils/wks.py:WorkSheet.to_sexpr"]}
{"id": "C55", "title": "What becomes of an object made without arguments", "statement": "An object made by calling its class without arguments has the stated text, and saved with any indentation and loaded again it is equal to the new object; for the 29 classes where this fails, the exception or the text and the kind of failure are stated.", "quantifier": "all classes with a reader and a writer; all indentation and newline arguments for the classes where the object comes back", "why_tests_cant": "the tests start from files; they make no object without arguments, and check no indentation but the default", "anchors": ["src/kiutils/items/common.py:Group", "src/kiutils/items/zones.py:FillSettings", "src/kiutils/items/brditems.py:Segment", "src/kiutils/items/brditems.py:Target", "src/kiutils/items/gritems.py:GrText", "src/kiutils/symbol.py:Symbol", "src/kiutils/schematic.py:Schematic", "src/kiutils/wks.py:WorkSheet"]}
{"id": "C56", "title": "Equality of objects looks at every attribute", "statement": "Two objects of a class are equal exactly if they agree in each of the attributes of the class, compared by the equality of that attribute; the list of attributes is complete. In a list that mixes classes, only items of the same class are equal.", "quantifier": "all pairs of objects of all 112 classes, any values in the 749 attributes", "why_tests_cant": "an equality that ignores an attribute is never noticed by a test that expects objects to be equal", "anchors": ["src/kiutils/items/common.py:Position", "src/kiutils/items/common.py:Effects", "src/kiutils/symbol.py:Symbol", "src/kiutils/footprint.py:Pad", "src/kiutils/items/brditems.py:PlotSettings", "src/kiutils/board.py:Board", "src/kiutils/schematic.py:Schematic", "src/kiutils/wks.py:WorkSheet"]}
{"id": "C57", "title": "An edit anywhere inside an object survives", "statement": "If an attribute of an object that stands anywhere inside a printable object (at any depth, through attributes, optional attributes and list elements) is set to a value that fits, and the outer object is saved with any indentation and loaded, the attribute of the object in that place has the new value, its other attributes are as before, and nothing outside it has changed.", "quantifier": "all printable objects of every class with parts, all places at any depth, all listed attributes of what stands there, all values that fit, all indentation and newline arguments", "why_tests_cant": "paths through nested objects are unbounded (symbols contain symbols), and a writer or reader that mixes up two list elements passes tests with one element", "anchors": ["src/kiutils/board.py:Board.to_sexpr", "src/kiutils/board.py:Board.from_sexpr", "src/kiutils/footprint.py:Footprint.to_sexpr", "src/kiutils/footprint.py:Pad.to_sexpr", "src/kiutils/symbol.py:Symbol.to_sexpr", "src/kiutils/schematic.py:Schematic.to_sexpr", "src/kiutils/wks.py:WorkSheet.to_sexpr"]}
{"id": "C58", "title": "Saves and loads leave no trace in a session of edits", "statement": "Someone starts with a printable object, sets attributes of it and of its parts at any depth to values that fit, any number of times, and whenever they like saves the object with any indentation and newline argument and continues with what is loaded. No save or load fails, and the object they end with is equal to the one the same edits give when nothing is saved or loaded in between.", "quantifier": "all printable objects of every class with a round trip, all sequences of edits, saves and loads of any length, all places, attributes, values that fit, and indentation and newline arguments of each save", "why_tests_cant": "sessions are unbounded sequences; a loss that only shows when an edit meets an object that has been through a file (a default filled in while loading, a value rewritten by the printer) needs the right edit after the right save", "anchors": ["src/kiutils/board.py:Board.to_file", "src/kiutils/board.py:Board.from_file", "src/kiutils/footprint.py:Footprint.to_sexpr", "src/kiutils/footprint.py:Footprint.from_sexpr", "src/kiutils/symbol.py:SymbolLib.to_sexpr", "src/kiutils/schematic.py:Schematic.to_sexpr", "src/kiutils/schematic.py:Schematic.from_sexpr", "src/kiutils/wks.py:WorkSheet.to_sexpr"]}
