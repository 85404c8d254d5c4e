"""Compare the attributes of every class and their default values in /repo with the records of the model.

The source is only parsed (ast), never run.  Prints one line for each difference, and nothing if there is none.
Usage: python3 tools/defaults.py
"""
import ast
import glob
import re
import sys

# what the model changes on purpose: Arc of schitems.py is called SchArc; the two project instances have the
# attribute name of their base class; a field(default_factory=Position) of NetclassFlag is the class itself,
# which no method can use, so the model has no object there
RENAMED = {('schitems.py', 'Arc'): 'SchArc'}
INHERITED = {'HierarchicalSheetProjectInstance', 'SymbolProjectInstance'}
CONSTANTS = {'KIUTILS_CREATE_NEW_VERSION_STR': "'20211014'", 'KIUTILS_CREATE_NEW_GENERATOR_STR': "'kiutils'"}


def source():
    for f in sorted(glob.glob('/repo/src/kiutils/**/*.py', recursive=True)):
        for c in ast.parse(open(f).read()).body:
            if isinstance(c, ast.ClassDef):
                yield f.split('/')[-1], c.name, [(s.target.id, ast.unparse(s.value) if s.value else '')
                                                 for s in c.body if isinstance(s, ast.AnnAssign)]


def arguments(text):
    out, cur, depth, quoted = [], '', 0, False
    for ch in re.sub(r'\s+', ' ', text) + ' ':
        quoted ^= ch == '"'
        depth += not quoted and ch in '(['
        depth -= not quoted and ch in ')]'
        if ch == ' ' and not depth and not quoted:
            if cur:
                out.append(cur)
            cur = ''
        else:
            cur += ch
    return out


def model():
    out = {}
    for f in glob.glob('/verif/rocq/theories/M_*.v'):
        s = re.sub(r'\(\*.*?\*\)', '', open(f).read(), flags=re.S)
        for m in re.finditer(r'(?:Record|Inductive) (\w+)[^.]*?:= mk\w+ \{(.*?)\}', s, flags=re.S):
            d = re.search(r'Definition %s_default[^:]*(?:: val\) )?: \w+ :=\s*mk\w+\s+(.*?)\.\s*\n' % m[1], s, flags=re.S)
            out[m[1]] = [x.split(':')[0].strip() for x in m[2].split(';')], d and arguments(d[1])
    return out


def decimal(v):
    a, b = v.split('.')
    n, e = int(a + b), -len(b)
    while n % 10 == 0 and e < 0:
        n, e = n // 10, e + 1
    return '(fdec %d %s)' % (n, e if e >= 0 else '(%d)' % e)


def translate(v):
    v = CONSTANTS.get(v, v)
    m = re.fullmatch(r'field\(default_factory=(?:lambda: )?(.*)\)', v)
    if m:
        v = m[1]
        if v in ('list', 'dict'):
            return {'[]'}
        if re.fullmatch(r'\w+\(\)', v):
            return {v[:-2] + '_default', '(JColor_obj %s_default)' % v[:-2]}
        if re.fullmatch(r'\w+', v):
            return {'None'}
        m = re.fullmatch(r"(\w+)\((\w+)=(.*)\)", v)
        if m:
            return {'(%s_default <| %s_%s := %s |>)' % (m[1], p, m[2], next(iter(translate(m[3]))).strip('()')) for p in ('po', 'pr')}
        m = re.fullmatch(r'Coordinate\((.*)\)', v)
        return {'((mkCoordinate %s))' % ' '.join(decimal(x) for x in m[1].split(', '))}
    if v == 'None':
        return {'VNone', 'None'}
    if v in ('True', 'False'):
        return {v.lower()}
    if v == "''":
        return {'(VStr [])'}
    if v[0] == "'":
        return {'(VStr $"%s")' % v[1:-1]}
    return {decimal(v)} if '.' in v else {'(VInt %s)' % v}


def main():
    mod, bad = model(), 0
    for f, c, attrs in source():
        if c == 'ProjectInstance':
            continue
        fields, defaults = mod[RENAMED.get((f, c), c)]
        if c in INHERITED:
            attrs = [('name', "''")] + attrs
        names = [x.split('_', 1)[1] for x in fields]
        if names != [a for a, _ in attrs]:
            print(f, c, 'attributes', [a for a, _ in attrs], names)
            bad += 1
            continue
        if defaults is None or len(defaults) != len(attrs):
            print(f, c, 'defaults', defaults)
            bad += 1
            continue
        for (a, v), d in zip(attrs, defaults):
            if (c, a) != ('Footprint', 'tedit') and d not in translate(v):  # tedit: the clock
                print(f, c, a, v, d)
                bad += 1
    return bad


sys.exit(1 if main() else 0)
