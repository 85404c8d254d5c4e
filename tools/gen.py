#!/usr/bin/env python3
"""Expand the .vt templates in this directory into rocq/theories/*.v.

A template is a Coq file in which
  @record Name prefix file:lines ... @end   declares a dataclass (one line per attribute:
      name kind default), emitted as record, field setters and default object;
  @ok Name [extra]      emits the normal form and the printability predicate of the class;
  @rt Name [...]        emits the standard lemmas of a class.
Everything else is copied."""
import re,sys,glob,os,pickle
D=os.path.dirname(os.path.abspath(__file__))
OUT=os.path.join(D,'..','rocq','theories')
CL={}
LEAF={'num':'numb','atom':'atomb','word':'wordv','txt':'txtb','raw':'rawtxtb','word0':'word0v','plain':'plainv','fix6':'fixb 6'}
def kinfo(kind,acc):
    """type, ok expr, norm expr, leaf-ness"""
    k=kind.split('/')
    b=k[0]
    if b in LEAF:
        n='nrm %s'%acc if b in('num','atom','fix6') else None
        return 'val','%s %s'%(LEAF[b],acc),n
    if b[0]=='o' and b[1:] in LEAF:
        n='nrm %s'%acc if b[1:] in('num','atom','fix6') else None
        return 'val','optb %s %s'%('(%s)'%LEAF[b[1:]] if ' ' in LEAF[b[1:]] else LEAF[b[1:]],acc),n
    if b[0]=='l' and b[1:] in LEAF:
        n='map nrm %s'%acc if b[1:] in('num','atom','fix6') else None
        return 'list val','forallb %s %s'%(LEAF[b[1:]],acc),n
    if b=='none': return 'val','is_none %s'%acc,None       # must be None
    if b=='eq': # must be given literal  eq/str
        return 'val','(%s =s "%s")'%(acc,k[1]),None
    if b=='enum': return 'val','enumb [%s] %s'%('; '.join('"%s"%%string'%x for x in k[1].split(',')),acc),None
    if b=='oenum': return 'val','optb (enumb [%s]) %s'%('; '.join('"%s"%%string'%x for x in k[1].split(',')),acc),None
    if b=='flag': return 'bool',None,None
    if b=='obool': return 'option bool',None,None          # None, True or False
    if b=='noflag': return 'bool','negb %s'%acc,None        # must be False
    if b=='val': return 'val',None,None                    # unconstrained (see extra)
    if b in('pos2','pos3','pos4'): return 'Position','%s_ok %s'%(b,acc),'Position_norm %s'%acc
    if b in('opos2','opos3','opos4'): return 'option Position','optok %s_ok %s'%(b[1:],acc),'option_map Position_norm %s'%acc
    if b in('lpos2','lpos3','lpos4'): return 'list Position','forallb %s_ok %s'%(b[1:],acc),'map Position_norm %s'%acc
    if b=='obj': return k[1],'%s_ok %s'%(k[1],acc),'%s_norm %s'%(k[1],acc)
    if b=='oobj': return 'option '+k[1],'optok %s_ok %s'%(k[1],acc),'option_map %s_norm %s'%(k[1],acc)
    if b=='list': return 'list '+k[1],'forallb %s_ok %s'%(k[1],acc),'map %s_norm %s'%(k[1],acc)
    if b=='raw_': return k[1].replace('_',' '),None,None
    if b=='cust': # cust/type/ok/norm
        return k[1].replace('~',' '),(k[2].replace('~',' ')+' '+acc if k[2] else None),(k[3].replace('~',' ')+' '+acc if k[3] else None)
    raise Exception(kind)
def eqinfo(kind,a,b):
    k=kind.split('/'); t=kinfo(kind,'x')[0]
    if t=='val': return 'py_eqb %s %s'%(a,b)
    if t=='bool': return 'Bool.eqb %s %s'%(a,b)
    def e(t):
        if t=='val': return 'py_eqb'
        if t=='bool': return 'Bool.eqb'
        if t=='(val * val)': return 'kveqb'
        return t+'_eqb'
    if t.startswith('list '): return 'leqb %s %s %s'%(e(t[5:]),a,b)
    if t.startswith('option '): return 'oeqb %s %s %s'%(e(t[7:]),a,b)
    return '%s %s %s'%(e(t),a,b)
def record(head,lines):
    _,name,pre,cite=head.split(None,3)
    fs=[]
    for l in lines:
        l=l.strip()
        if not l: continue
        n,k,d=l.split(None,2)
        fs.append((n,k,d))
    CL[name]=(pre,fs)
    o='(** %s: attributes of %s and their defaults *)\n'%(cite,name)
    rec=any(k=='list/'+name for n,k,d in fs)
    o+=('Inductive' if rec else 'Record')+' %s := mk%s {\n'%(name,name)+';\n'.join('  %s_%s : %s'%(pre,n,kinfo(k,'x')[0]) for n,k,d in fs)+' }.\n'
    o+='#[export] Instance eta_%s : Settable %s :=\n  settable! mk%s <%s>.\n'%(name,name,name,'; '.join('%s_%s'%(pre,n) for n,k,d in fs))
    arg=' (now : val)' if any(d=='now' for n,k,d in fs) else ''
    o+='Definition %s_default%s : %s :=\n  mk%s %s.\n'%(name,arg,name,name,' '.join('(%s)'%d if ' ' in d else d for n,k,d in fs))
    return o
def ok(line):
    p=line.split(None,2); name=p[1]; extra=p[2] if len(p)>2 else None
    pre,fs=CL[name]
    o='Definition %s_norm (o : %s) : %s :=\n  mk%s %s.\n'%(name,name,name,name,' '.join('(%s)'%(kinfo(k,'(%s_%s o)'%(pre,n))[2] or '%s_%s o'%(pre,n)) for n,k,d in fs))
    cs=[kinfo(k,'(%s_%s o)'%(pre,n))[1] for n,k,d in fs]
    cs=[c for c in cs if c]
    if any(k=='list/'+name for n,k,d in fs): o=o.replace('Definition','Fixpoint',1)
    if extra: cs.append('(%s)'%extra)
    if not cs: cs=['true']
    o+='(** dataclass == on %s *)\nDefinition %s_eqb (a b : %s) : bool :=\n  %s.\n'%(name,name,name,'\n  && '.join(eqinfo(k,'(%s_%s a)'%(pre,n),'(%s_%s b)'%(pre,n)) for n,k,d in fs))
    o+='Definition %s_ok (o : %s) : bool :=\n  %s.\n'%(name,name,'\n  && '.join(cs))
    if any(k=='list/'+name for n,k,d in fs): o=o.replace('Definition','Fixpoint').replace('(a b : %s)'%name,'(a b : %s) {struct a}'%name)
    return o
def rt(line):
    """@rt Name head [noto noidem nookn nord] [ok=.. step=..]"""
    p=line.split(); name=p[1]; head=p[2]; opts=p[3:]
    N={'X':name,'H':head}
    kv=dict(o.split('=') for o in opts if '=' in o)
    N['S']=kv.get('step',name+'_step').replace('~',' ')
    o=''
    a=kv.get('arg'); ARG[name]=a; b=' '+a if a else ''
    def emit(t):
        if a: t=re.sub(r'(Lemma \{X\}_(?:rd|rt|fmt))',r'\1'+b,t); t=re.sub(r'((?:rt|fmt)_of .*?\{X\}_rd)',lambda m:m[1].replace('{X}_rd','({X}_rd'+b+')'),t)
        if a: t=re.sub(r'^(Lemma.*)\{X\}_from',r'\1({X}_from'+b+')',t,flags=re.M)
        return t.replace('{X}',name).replace('{H}',head).replace('{S}',N['S'])
    F='(%s_from%s)'%(name,b) if a else name+'_from'
    if 'noto' not in opts:
        o+=emit("""Lemma {X}_wr o i n : {X}_ok o = true -> Wr ({X}_to o i n) (flat ({X}_tree ({X}_norm o))).
Proof. wr {X}_to {X}_ok {X}_tree {X}_norm. Qed.
#[export] Hint Resolve {X}_wr : wr.
""")
    if 'noidem' not in opts:
        o+=emit("""Lemma {X}_idem o : {X}_norm ({X}_norm o) = {X}_norm o.
Proof. idem {X}_norm. Qed.
#[export] Hint Rewrite {X}_idem : idem.
""")
    if 'nookn' not in opts:
        o+=emit("""Lemma {X}_okn o : {X}_ok o = true -> {X}_ok ({X}_norm o) = true.
Proof. okn {X}_ok {X}_norm. Qed.
#[export] Hint Resolve {X}_okn : okn.
""")
    if 'nohd' not in opts:
        o+=emit("""Lemma {X}_hd o : exists l, {X}_tree o = node "{H}" l.
Proof. eexists. reflexivity. Qed.
#[export] Hint Resolve {X}_hd : hd.
""")
    if 'rdrefl' in opts:
        o+=emit("""Lemma {X}_rd o : {X}_ok o = true -> {X}_from ({X}_tree o) = Ok o.
Proof. intros _. destruct o. reflexivity. Qed.
#[export] Hint Resolve {X}_rd : rd.
""")
    elif 'nord' not in opts:
        o+=emit("""Lemma {X}_rd o : {X}_ok o = true -> {X}_from ({X}_tree o) = Ok o.
Proof. rd {X}_ok {X}_from {X}_tree {S}. Qed.
#[export] Hint Resolve {X}_rd : rd.
""")
    if 'nosame' not in opts:
        o+=emit("""Lemma {X}_same o : {X}_eqb o ({X}_norm o) = true.
Proof. same {X}_eqb {X}_norm. Qed.
#[export] Hint Resolve {X}_same : same.
""")
    if 'nort' not in opts:
        o+=emit("""Lemma {X}_rt : roundtrips {X}_to {X}_from {X}_ok {X}_norm {X}_eqb.
Proof. exact (rt_of _ _ _ {X}_tree _ _ {X}_wr {X}_rd {X}_same {X}_okn {X}_idem). Qed.
""")
        o+=emit("""Lemma {X}_fmt : conforms {X}_to {X}_from {X}_ok {X}_norm {X}_tree.
Proof. exact (fmt_of _ _ _ _ _ {X}_wr {X}_rd). Qed.
""")
    heads='['+'; '.join('"%s"%%string'%x for x in kv.get('heads',head).split(','))+']'
    if 'noref' not in opts:
        REF[name]=heads
        if 'manref' not in opts: o+='Lemma %s_ref%s : refuses %s %s.\nProof. refuse %s_from. Qed.\n'%(name,b,F,heads,name)
    npos=kv.get('npos','0'); keys=KEYS.get(name); single=SINGLE.get(name)
    sl=lambda l:'['+'; '.join('"%s"%%string'%x for x in l)+']'
    if keys and 'noign' not in opts:
        IGN[name]=(npos,sl(keys))
        if 'manign' not in opts: o+='Lemma %s_ign%s : ignores %s %s %s.\nProof. ign %s_from %s %s. Qed.\n'%(name,b,F,npos,sl(keys),name,N['S'],nat(npos))
    if single and 'nowins' not in opts:
        WIN[name]=(npos,sl(single))
        if 'manwins' not in opts: o+='Lemma %s_win%s : last_wins %s %s %s.\nProof. wins %s_from %s %s. Qed.\n'%(name,b,F,npos,sl(single),name,N['S'],nat(npos))
    if 'noopq' not in opts: o+=emit("Global Opaque {X}_from {X}_tree {X}_to {X}_norm {X}_ok {X}_eqb.\n")
    return o
def prop(line):
    """@prop C09 Name example-object"""
    p=line.split(None,3); c,name,ex=p[1],p[2],(p[3] if len(p)>3 else None)
    nm=c+'_'+name
    a=ARG.get(name); FA='forall %s, '%a if a else ''; F='(%s_from %s)'%(name,a) if a else name+'_from'
    o="""Theorem %s : %sroundtrips %s_to %s %s_ok %s_norm %s_eqb.
Proof. exact %s_rt. Qed.
Print Assumptions %s.
"""%(nm,FA,name,F,name,name,name,name,nm)
    o+="""Theorem C36_%s : %sconforms %s_to %s %s_ok %s_norm %s_tree.
Proof. exact %s_fmt. Qed.
Print Assumptions C36_%s.
"""%(name,FA,name,F,name,name,name,name,name)
    for pr,D_,th in (('C27',REF,'refuses %s %s'),('C28',IGN,'ignores %s %s'),('C30',WIN,'last_wins %s %s')):
        if name in D_:
            ar=D_[name]; ar=ar if isinstance(ar,str) else ' '.join(ar)
            o+='Theorem %s_%s : %s%s.\nProof. exact %s_%s. Qed.\nPrint Assumptions %s_%s.\n'%(pr,name,FA,th%(F,ar),name,{'C27':'ref','C28':'ign','C30':'win'}[pr],pr,name)
    if ex: o+="""Example %s_ex : %s_ok (%s) = true.
Proof. vm_compute. reflexivity. Qed.
"""%(nm,name,ex)
    return o
UN={}
ARG={}; KEYS={}; SINGLE={}; REF={}; IGN={}; WIN={}
def nat(n): return '(S '*int(n)+'O'+')'*int(n)

def union(line):
    """@union Name cite Class ..   (model file: the type and the writer)"""
    p=line.split(); name,cite,cls=p[1],p[2],p[3:]
    UN[name]=cls
    o='(** %s: a list element of one of several classes *)\nInductive %s :=\n%s.\n'%(cite,name,'\n'.join('| %s_%s (x : %s)'%(name,c,c) for c in cls))
    o+='Definition %s_to (o : %s) (indent : nat) (newline : bool) : res str :=\n  match o with\n%s\n  end.\n'%(name,name,'\n'.join('  | %s_%s x => %s_to x indent newline'%(name,c,c) for c in cls))
    return o
def uspec(line):
    """@uspec Name [-Class ..]  (specification file; elements of the classes with - are not printable)"""
    p=line.split(); name=p[1]; cls=UN[name]; ex=[x[1:] for x in p[2:]]
    m=lambda f,pre='':'match o with\n%s\n  end'%'\n'.join('  | %s_%s x => %s'%(name,c,f(c)) for c in cls)
    o='Definition %s_tree (o : %s) : val :=\n  %s.\n'%(name,name,m(lambda c:c+'_tree x'))
    o+='Definition %s_norm (o : %s) : %s :=\n  %s.\n'%(name,name,name,m(lambda c:'%s_%s (%s_norm x)'%(name,c,c)))
    o+='Definition %s_ok (o : %s) : bool :=\n  %s.\n'%(name,name,m(lambda c:'false' if c in ex else c+'_ok x'))
    o+='Definition %s_eqb (a b : %s) : bool :=\n  match a, b with\n%s\n  | _, _ => false\n  end.\n'%(name,name,'\n'.join('  | %s_%s x, %s_%s y => %s_eqb x y'%(name,c,name,c,c) for c in cls))
    return o
def urt(line):
    """@urt Name   (lemmas)"""
    name=line.split()[1]
    return """#[export] Hint Extern 1 (IsUnion {X}) => exact I : union.
Lemma {X}_wr o i n : {X}_ok o = true -> Wr ({X}_to o i n) (flat ({X}_tree ({X}_norm o))).
Proof. destruct o; cbn [{X}_to {X}_ok {X}_tree {X}_norm]; try discriminate; eauto 2 with wr. Qed.
#[export] Hint Resolve {X}_wr : wr.
Lemma {X}_idem o : {X}_norm ({X}_norm o) = {X}_norm o.
Proof. destruct o; cbn [{X}_norm]; autorewrite with idem; reflexivity. Qed.
#[export] Hint Rewrite {X}_idem : idem.
Lemma {X}_okn o : {X}_ok o = true -> {X}_ok ({X}_norm o) = true.
Proof. destruct o; cbn [{X}_norm {X}_ok]; try discriminate; eauto 2 with okn. Qed.
#[export] Hint Resolve {X}_okn : okn.
Lemma {X}_same o : {X}_eqb o ({X}_norm o) = true.
Proof. destruct o; cbn [{X}_norm {X}_eqb]; eauto 2 with same. Qed.
#[export] Hint Resolve {X}_same : same.
Global Arguments {X}_tree : simpl never. Global Arguments {X}_norm : simpl never. Global Arguments {X}_ok : simpl never.
Global Arguments {X}_to : simpl never. Global Arguments {X}_eqb : simpl never.
""".replace('{X}',name)
def expand(f):
    for m in re.finditer(r'Definition (\w+)_step\b(.*?)\.\n(?=\n|\(\*|@|Definition|Fixpoint)',open(f).read(),re.S):
        def uniq(l): return list(dict.fromkeys(l))
        KEYS[m[1]]=uniq(re.findall(r'\bh =s "([^"]+)"',m[2]))
        SINGLE[m[1]]=uniq(re.findall(r'on \(h =s "([^"]+)"\)\s+\(setf',m[2]))
    out=[]; lines=open(f).read().split('\n'); i=0
    while i<len(lines):
        l=lines[i]
        if l.startswith('@record'):
            j=i+1
            while lines[j].strip()!='@end': j+=1
            out.append(record(l,lines[i+1:j])); i=j+1; continue
        if l.startswith('@ok'):
            while l.endswith('\\'): i+=1; l=l[:-1]+lines[i].strip()
            out.append(ok(l)); i+=1; continue
        if l.startswith('@prop'):
            while l.endswith('\\'): i+=1; l=l[:-1]+lines[i].strip()
            out.append(prop(l)); i+=1; continue
        for m,f_ in (('@union',union),('@uspec',uspec),('@urt',urt)):
            if l.startswith(m):
                while l.endswith('\\'): i+=1; l=l[:-1]+lines[i].strip()
                out.append(f_(l)); break
        else: f_=None
        if f_: i+=1; continue
        if l.startswith('@rt'): out.append(rt(l)); i+=1; continue
        out.append(l); i+=1
    name=os.path.basename(f)[:-3]+'.v'
    txt='\n'.join(out)
    p=os.path.join(OUT,name)
    if not os.path.exists(p) or open(p).read()!=txt: open(p,'w').write(txt)
ORDER=open(os.path.join(D,'order')).read().split()
for f in ORDER: expand(os.path.join(D,f+'.vt'))
