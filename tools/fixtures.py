"""Writes rocq/theories/Fixtures_*.v from the test data of the source.

The unit tests of the source load a file, change it or not, save it and compare the result byte by
byte with an expected file.  Each such test becomes an Example about the model.  They compare the
model with what the authors of the code recorded of it; the source itself is not run."""
import os
B = '/repo/tests/testdata/'
OUT = os.path.join(os.path.dirname(os.path.abspath(__file__)), '..', 'rocq', 'theories')
LIMIT = 8000  # 300000 makes all of them; the kernel and coqchk then take long
HEAD = '''(** Fixtures of the unit tests in /repo/tests/%s: the model writes, byte by byte, the files the tests expect.
    Generated by tools/fixtures.py. *)
From Coq Require Import String.
From Verif Require Import PyBase PyNum PyStr Sexpr RecordSet M_Common M_Lib M_Sym M_Fp M_Gr M_Zone M_Footprint M_Dim M_Brd M_Board M_Sch M_Schematic M_Wks.

Fixpoint same (a b : str) : bool := match a, b with [], [] => true | x :: a', y :: b' => N.eqb x y && same a' b' | _, _ => false end.
Definition gives (m : res str) (t : str) : bool := match m with Ok s => same s t | Err _ => false end.
Definition nth_set {A} (k : nat) (f : A -> A) (l : list A) : list A := match skipn k l with x :: r => firstn k l ++ f x :: r | [] => l end.
Definition nth_try {A} (k : nat) (f : A -> res A) (l : list A) : res (list A) := match skipn k l with x :: r => let! y := f x in Ok (firstn k l ++ y :: r) | [] => Err EIndex end.
Definition read {A} (from : val -> res A) (t : str) : res A := let! v := parse_sexp t in from v.
'''
def lit(t):
    out = []
    for line in t.splitlines(keepends=True):
        nl = line.endswith('\n')
        l = line[:-1] if nl else line
        if all(32 <= ord(c) < 127 or c == '\t' for c in l): x = '$"%s"' % l.replace('"', '""')
        else: x = '[' + '; '.join('%d' % ord(c) for c in l) + ']%N'
        out.append('%s%s' % (x, ' ++ nl' if nl else ''))
    return 'concat [\n' + ';\n'.join(out) + ']'
def text(p): return open(B + p, encoding='utf-8', newline=None).read()
def same(p, q=None): return ('same', p, q or p)
def exp(p): return ('same', p, p + '.expected')
V7 = 'since_v7/'
T = {
 'board': ('Board', ['test_boardWithAllPrimitives!', 'test_allFpManufacturingAttributes', 'test_boardTraceArcs', 'test_boardStackup32LayerDielectricsVias', 'test_zoneOnAllLayersWildcard',
    'test_zoneOnOuterLayersOnly', 'test_pcbPlotParams', V7 + 'test_textBoxAllVariants', V7 + 'test_imageWithLayerToken', V7 + 'test_textKnockout', V7 + 'test_textsWithRenderCaches', V7 + 'test_pcbPlotParams']),
 'designrules': ('DesignRules', ['test_allDesignRuleItems', V7 + 'test_severityToken']),
 'footprint': ('Footprint', ['legacy/test_moduleNameOnlyNumbers!', 'test_allFootprintItems!', 'test_footprintPadNewLines', 'test_footprintEmptyAttributes!', 'test_3dModelHideProperty', V7 + 'test_textBoxAllVariants',
    V7 + 'test_imageWithLayerToken', V7 + 'test_textsWithRenderCaches', V7 + 'test_exemptFromCourtyardToken', V7 + 'test_textKnockout', V7 + 'test_netTiePadGroups', V7 + 'test_privateLayersToken', V7 + 'test_3dModelOpacityToken']),
 'libtable': ('LibTable', ['test_parseFpLibTable.expected', 'test_parseSymLibTable.expected']),
 'misc': ('Schematic', ['test_quotesAndBackslashInSexpr']),
 'schematic': ('Schematic', ['test_schematicWithAllPrimitives!', 'test_hierarchicalSchematicWithAllPrimitives!', 'test_parseStrokeTokens', V7 + 'test_textBoxAllVariants', V7 + 'test_rectangleAllVariants', V7 + 'test_circleAllVariants', V7 + 'test_arcAllVariants',
    V7 + 'test_netclassFlags', V7 + 'test_symbolPinOptionalTokens', V7 + 'test_sheetProperties', V7 + 'test_busAliases', V7 + 'test_strokeOptionalTokens', V7 + 'test_schematicWithAllPrimitives', V7 + 'test_specialLibIdWithMultipleUnderscoresAndNumbers']),
 'symbol': ('SymbolLib', ['test_allSymbolAlternatePins', 'test_allSymbolPinVariations', 'test_bigSymbolLibrary', 'test_symbolDemorganUnits', 'test_symbolDemorganSyItems', 'test_symbolParameters', 'test_symbolIdParser', V7 + 'test_textBoxAllVariants', V7 + 'test_rectangleAllVariants', V7 + 'test_circleAllVariants', V7 + 'test_arcAllVariants']),
 'worksheets': ('WorkSheet', ['test_allWorkSheetItems']),
}
# tests that build or change objects: the object as a term of type [res X]; $F is the file that is read
E = {
 'board': [('test_createEmptyBoard', '', 'Ok Board_create_new'),
    ('test_renameFootprintIdToken', '!', '''let! o := $F in Ok (o <| bd_footprints := nth_set 0 (Footprint_set_libId (VStr $"I_was_renamed:BUS_PCIexpress_x1")) (nth_set 1 (Footprint_set_libId (VStr $"I_was_added:BUS_PCIexpress_x1")) (bd_footprints o)) |>)''')],
 'designrules': [('test_createNewDesignRules', '', 'Ok DesignRules_create_new')],
 'footprint': [('test_createNewFootprintType' + a, '', 'let! o := Footprint_create_new (VStr $"now") (VStr $"empty-footprint-%s") (VStr $"empty-footprint-%s") (VStr $"%s") (VStr $"REF**") in Ok (o <| fd_tedit := VStr $"%s" |>)' % (t, t, t, e))
    for a, t, e in [('SMD', 'smd', '6328915F'), ('THT', 'through_hole', '63289145'), ('Other', 'other', '6328916A')]],
 'libtable': [('test_createNewLibTable', '', 'Ok (LibTable_create_new (VStr $"sym_lib_table"))'),
    ('test_addEmptyLibraryObjectToLibTable', '!', 'Ok (mkLibTable (VStr $"fp_lib_table") [Library_default] VNone)'),
    ('test_addLibraryObjectToLibTable', '!', '''Ok (mkLibTable (VStr $"fp_lib_table") [Library_default <| lb_name := VStr $"object1" |> <| lb_type := VStr $"KiCad" |> <| lb_uri := VStr $"${KIPRJMOD}/my/library.pretty" |> <| lb_options := VStr $"Some options with ""quoted strings""" |> <| lb_description := VStr $"Some description with ""quoted strings""" |> <| lb_active := false |>] VNone)''')],
 'schematic': [('test_createEmptySchematic', '!', 'Ok Schematic_create_new'),
    ('test_addPropertyToSchematicSymbol', '!', '''let! o := $F in Ok (o <| sc_schematicSymbols := nth_set 0 (fun s => s <| ss_properties := ss_properties s ++ [Property_default <| pr_key := VStr $"Property3" |> <| pr_value := VStr $"I was added from ""outside"" of KiCad" |> <| pr_id := VInt 6 |>] |>) (sc_schematicSymbols o) |>)'''),
    ('test_renameSymbolIdTokenInSchematic', '!', '''let! o := $F in let! l := nth_try 0 (Symbol_set_libId (VStr $"RenamedSwitch:SW_Coded_New")) (sc_libSymbols o) in let! l := nth_try 1 (Symbol_set_libId (VStr $"Unset_Lib_Id")) l in let! s := nth_try 0 (SchematicSymbol_set_libId (VStr $"SwitchRenamed:SW_Coded_2")) (sc_schematicSymbols o) in let! s := nth_try 1 (SchematicSymbol_set_libId (VStr $"Unset_Lib_Id")) s in Ok (o <| sc_libSymbols := l |> <| sc_schematicSymbols := s |>)'''),
    ('test_setSymbolLibNameToken', '!', '''let! o := $F in Ok (o <| sc_schematicSymbols := nth_set 0 (fun s => s <| ss_libName := VStr (fmt (ss_entryName s) ++ $"_1") |>) (nth_set 1 (fun s => s <| ss_libName := VNone |>) (sc_schematicSymbols o)) |>)''')],
 'symbol': [('test_createNewSymbolInEmptyLibrary', '', 'let! s := Symbol_create_new (VStr $"testsymbol") (VStr $"U") (VStr $"testvalue") (VStr []) (VStr []) in Ok (SymbolLib_default <| sj_version := VStr $"20211014" |> <| sj_generator := VStr $"kiutils" |> <| sj_symbols := [s] |>)'),
    ('test_renameParentIdUsingIdToken', '!', '''let! o := $F in let! l := nth_try 0 (Symbol_set_libId (VStr $"ExampleLibrary:AD2023")) (sj_symbols o) in let! l := nth_try 1 (Symbol_set_libId (VStr $"AD2023")) l in Ok (o <| sj_symbols := l |>)'''),
    ('test_createNewTopLevelSymbolFromChild', '!', '''let! o := $F in match sj_symbols o with s :: _ => match sy_units s with u :: _ => let! t := Symbol_to u 2 true in let! c := read Symbol_from t in let! c := Symbol_set_libId (VStr $"SomeNewName:AD2023") c in Ok (o <| sj_symbols := sj_symbols o ++ [c] |>) | [] => Err EIndex end | [] => Err EIndex end''')],
 'worksheets': [('test_createNewWorksheet', '', 'Ok WorkSheet_create_new')],
}
names = []
for d, (c, l) in T.items():
    frm = c + '_from' if c not in ('Board', 'Footprint') else '(%s_from (VStr $"now"))' % c
    to = '(fun o => %s_to o 0 %s)' % (c, 'false' if c == 'DesignRules' else 'true')
    out = HEAD % ('test_%s.py' % {'worksheets': 'worksheets'}.get(d, d))
    def case(p, q, obj):
        global out
        n = p.replace('since_v7/', 'v7_').replace('legacy/', '').replace('.expected', '').replace('test_', '')
        src, want = text('%s/%s' % (d, p)) if '$F' in obj else '', text('%s/%s' % (d, q))
        if max(len(src), len(want)) > LIMIT: print('skipped', d, p, len(want)); return
        out += '\nDefinition want_%s : str := %s.\n' % (n, lit(want))
        if '$F' in obj:
            if p == q: f = 'want_' + n
            else: out += 'Definition file_%s : str := %s.\n' % (n, lit(src)); f = 'file_' + n
            if c == 'DesignRules': f = '($"(" ++ %s ++ $")")' % f
            obj = obj.replace('$F', 'read %s %s' % (frm, f))
        out += 'Example fixture_%s : gives (let! o := (%s) in %s o) want_%s = true.\nProof. vm_compute. reflexivity. Qed.\n' % (n, obj, to, n)
    for p in l: case(p.rstrip('!'), p.replace('!', '.expected'), '$F')
    for p, x, obj in E.get(d, []): case(p, p + ('.expected' if x else ''), obj)
    m = 'Fixtures_' + d.capitalize()
    open(os.path.join(OUT, m + '.v'), 'w').write(out); names.append(m)
print(' '.join(names))
