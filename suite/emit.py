"""Writes rocq/theories/S_Suite*.v: the sources, configurations and expected
results of the project's tests (/repo/tests) as Coq terms.

    python3 suite/emit.py [directory]

rs2coq.py reads the subset of Rust the tests are written in."""
import sys,re,glob
import os,tomllib
from rs2coq import *
T='/repo/tests/rust/'; E='/repo/tests/expectations/'
RR={}
for names,c in [(['none'],'RNone'),(['mGeckoCase','GeckoCase','gecko_case'],'GeckoCase'),(['lowercase','LowerCase','lower_case'],'LowerCase'),(['UPPERCASE','UpperCase','upper_case'],'UpperCase'),(['PascalCase','pascal_case'],'PascalCase'),(['camelCase','CamelCase','camel_case'],'CamelCase'),(['snake_case','SnakeCase'],'SnakeCase'),(['SCREAMING_SNAKE_CASE','ScreamingSnakeCase','screaming_snake_case'],'ScreamingSnakeCase'),(['QUALIFIED_SCREAMING_SNAKE_CASE','QualifiedScreamingSnakeCase','qualified_screaming_snake_case'],'QualifiedScreamingSnakeCase'),(['None'],'RNone')]:
    for n in names: RR[n]=c
def rule(s): return RR[s] if s in RR else '(RPrefix %s)'%q(s[7:])
def qs(l): return lst([q(x) for x in l])
def kv(d): return lst(['(%s, %s)'%(q(k),q(v)) for k,v in d.items()])
def os_(v): return 'None' if v is None else '(Some %s)'%q(v)
LAY={'horizontal':'Horizontal','vertical':'Vertical','auto':'Auto'}
IT={'constants':'Constants','globals':'Globals','enums':'Enums','structs':'Structs','unions':'Unions','typedefs':'Typedefs','opaque':'OpaqueItems','functions':'Functions'}
def sortk(v): return {'name':'SortName','none':'SortNone'}[v.lower()]
def rec(pre,d,spec,extra=()):
    out=[]; used=set(extra)
    for k,(kind,dflt) in spec.items():
        used.add(k)
        v=d.get(k)
        if kind=='b': x=bl(dflt if v is None else v)
        elif kind=='os': x=os_(v)
        elif kind=='rule': x=dflt if v is None else rule(v)
        elif kind=='osort': x='None' if v is None else '(Some %s)'%sortk(v)
        elif kind=='lay': x='Auto' if v is None else LAY[v.lower()]
        elif kind=='ss': x=qs(v or [])
        elif kind=='kv': x=kv(v or {})
        elif kind=='raw': x=dflt(v)
        else: raise Exception(kind)
        out.append('%s%s := %s'%(pre,k,x))
    for k in d:
        if k not in used: raise Exception('unknown key '+k)
    return '{| '+'; '.join(out)+' |}'
def config(d,lang,compat,style):
    d=dict(d)
    lang_toml=d.get('language'); 
    g=d.get
    pre=[]
    fn=rec('fn_',g('fn',{}),dict(prefix=('os',0),postfix=('os',0),must_use=('os',0),deprecated=('os',0),deprecated_with_note=('os',0),args=('lay',0),rename_args=('rule','RNone'),swift_name_macro=('os',0),sort_by=('osort',0),no_return=('os',0)))
    st=rec('st_',g('struct',{}),dict(rename_fields=('rule','RNone'),derive_constructor=('b',0),derive_eq=('b',0),derive_neq=('b',0),derive_lt=('b',0),derive_lte=('b',0),derive_gt=('b',0),derive_gte=('b',0),derive_ostream=('b',0),associated_constants_in_body=('b',0),rename_associated_constant=('rule','RNone'),must_use=('os',0),deprecated=('os',0),deprecated_with_note=('os',0)))
    en=rec('en_',g('enum',{}),dict(rename_variants=('rule','RNone'),rename_variant_name_fields=('rule','SnakeCase'),add_sentinel=('b',0),prefix_with_name=('b',0),derive_helper_methods=('b',0),derive_const_casts=('b',0),derive_mut_casts=('b',0),cast_assert_name=('os',0),must_use=('os',0),deprecated=('os',0),deprecated_with_note=('os',0),deprecated_variant=('os',0),deprecated_variant_with_note=('os',0),derive_tagged_enum_destructor=('b',0),derive_tagged_enum_copy_constructor=('b',0),derive_tagged_enum_copy_assignment=('b',0),derive_ostream=('b',0),enum_class=('b',1),private_default_tagged_enum_constructor=('b',0)))
    co=rec('co_',g('const',{}),dict(allow_static_const=('b',1),allow_constexpr=('b',1),sort_by=('osort',0)))
    mg=lambda v: rec('',v or {},dict(rename_types=('rule','RNone'),remove_underscores=('b',0)))
    ex=rec('ex_',g('export',{}),dict(include=('ss',0),exclude=('ss',0),rename=('kv',0),pre_body=('kv',0),body=('kv',0),prefix=('os',0),item_types=('raw',lambda v: lst([IT[x.lower()] for x in v or []])),renaming_overrides_prefixing=('b',0),mangle=('raw',mg)))
    ly=rec('ly_',g('layout',{}),dict(packed=('os',0),aligned_n=('os',0)))
    pt=rec('pt_',g('ptr',{}),dict(non_null_attribute=('os',0),nullable_attribute=('os',0)))
    cy=rec('cy_',g('cython',{}),dict(header=('os',0),cimports=('raw',lambda v: lst(['(%s, %s)'%(q(k),qs(x)) for k,x in sorted((v or {}).items())]))))
    le={'lf':'LF','cr':'CR','crlf':'CRLF','native':'Native'}[g('line_endings','lf').lower()]
    if style is None: style={'both':'Both','tag':'Tag','type':'Type_'}[g('style','both').lower()]
    ds={'c':'DocC','c99':'DocC99','doxy':'DocDoxy','cxx':'DocCxx','c++':'DocCxx','auto':'DocAuto'}[g('documentation_style','auto').lower()]
    dl={'short':'Short','full':'Full'}[g('documentation_length','full').lower()]
    br={'SameLine':'SameLine','same_line':'SameLine','NextLine':'NextLine','next_line':'NextLine'}[g('braces','SameLine')]
    oss=lambda k: 'None' if g(k) is None else '(Some %s)'%qs(g(k))
    known='header includes sys_includes after_includes trailer include_guard pragma_once no_includes package_version autogen_warning include_version namespace namespaces using_namespaces braces line_length tab_width line_endings language cpp_compat style sort_by usize_is_size_t parse export macro_expansion layout fn struct enum const defines documentation documentation_style documentation_length ptr cython'.split()
    for k in d:
        if k not in known: raise Exception('unknown '+k)
    return '''{| header := %s; includes_ := %s; sys_includes_ := %s; after_includes := %s; trailer := %s;
  include_guard_ := %s; pragma_once := %s; no_includes := %s; package_version := %s; autogen_warning := %s; include_version := %s;
  namespace := %s; namespaces := %s; using_namespaces := %s; braces := %s; line_length := %d; tab_width := %d; line_endings := %s;
  language := %s; cpp_compat := %s; style := %s; sort_by := %s; usize_is_size_t := %s; parse := default_parse; export := %s;
  layout := %s; function := %s; structure := %s; enumeration := %s; constant := %s; defines := %s; documentation := %s;
  documentation_style := %s; documentation_length := %s; pointer := %s; cython := %s; config_path := None |}'''%(
   os_(g('header')),qs(g('includes',[])),qs(g('sys_includes',[])),os_(g('after_includes')),os_(g('trailer')),os_(g('include_guard')),bl(g('pragma_once')),bl(g('no_includes')),bl(g('package_version')),os_(g('autogen_warning')),bl(g('include_version')),os_(g('namespace')),oss('namespaces'),oss('using_namespaces'),br,g('line_length',100),g('tab_width',2),le,lang,bl(compat or g('cpp_compat')),style,sortk(g('sort_by','none')),bl(g('usize_is_size_t')),ex,ly,fn,st,en,co,kv(g('defines',{})),bl(g('documentation',True)),ds,dl,pt,cy)
VARS=[('compat_','C',True,'Type_','','.compat.c'),('compat_tag','C',True,'Tag','_tag','.compat.c'),('compat_both','C',True,'Both','_both','.compat.c'),
('c_','C',False,'Type_','','.c'),('c_tag','C',False,'Tag','_tag','.c'),('c_both','C',False,'Both','_both','.c'),
('cpp','Cxx',False,None,'','.cpp'),('pyx_','Cython',False,'Type_','','.pyx'),('pyx_tag','Cython',False,'Tag','_tag','.pyx')]
def load(name):
    toml=T+name+'.toml'
    d=tomllib.loads(open(toml).read()) if os.path.exists(toml) else {}
    return translate(open(T+name+'.rs').read()), d
S='/repo/tests/expectations-symbols/'
OUT=sys.argv[1] if len(sys.argv)>1 else '/verif/rocq/theories'
def lit(s):
    if '\r' in s:
        return 'join (String (ascii_of_nat 13) "") ['+'; '.join('"'+x.replace('"','""')+'"' for x in s.split('\r'))+']'
    return '"'+s.replace('"','""')+'"'
def run_as(l,cc,st):
    return 'RunCxx' if l=='Cxx' else ('RunCython %s'%st if l=='Cython' else 'RunC %s %s'%(bl(cc),st))
def cpath(parts): return lst([q(p) for p in parts])
def wrap(s,n=130):
    # break long Coq terms at '; ' outside strings
    out='';cur='';ins=False
    for i,ch in enumerate(s):
        cur+=ch
        if ch=='"': ins=not ins
        if not ins and ch in ' ' and len(cur)>=n: out+=cur.rstrip()+'\n'; cur='  '
    return out+cur
def meta_of(t):
    # target "cfg(...)" or triple
    if t.startswith('cfg('):
        p=P(lex(t)); a=p.meta()
        # convert arg syntax to meta
        m=re.match(r'\(AList \(Some "cfg"\) \[(.*)\]\)$',a)
        return '(%s, to_meta %s)'%(q(t),a)
    return '(%s, None)'%q(t)
def crate(name):
    root=T+name
    d=tomllib.loads(open(root+'/cbindgen.toml').read()) if os.path.exists(root+'/cbindgen.toml') else {}
    pk={};files={}
    def rel(p): return ['tests','rust']+os.path.relpath(os.path.normpath(p),T).split('/')
    def visit(dir):
        dir=os.path.normpath(dir)
        c=tomllib.loads(open(dir+'/Cargo.toml').read())
        if dir in pk: return pk[dir]['name']
        n=c['package']['name']; deps=[]
        pk[dir]=dict(name=n,version=c['package']['version'],deps=deps,kinds=c.get('lib',{}).get('crate-type',['lib']),dir=dir,libname=c.get('lib',{}).get('path','src/lib.rs'))
        for f in glob.glob(dir+'/src/**/*.rs',recursive=True): files[f]=1
        for k,v in c.get('dependencies',{}).items():
            if isinstance(v,dict) and 'path' in v: deps.append((visit(dir+'/'+v['path']),None))
            else: deps.append((v.get('package',k) if isinstance(v,dict) else k,None))
        for t,tv in c.get('target',{}).items():
            for k,v in tv.get('dependencies',{}).items():
                if isinstance(v,dict) and 'path' in v: deps.append((visit(dir+'/'+v['path']),t))
                else: deps.append((v.get('package',k) if isinstance(v,dict) else k,t))
        return n
    visit(root)
    lockf=root+'/Cargo.lock'
    if not os.path.exists(lockf): lockf=os.path.normpath(root+'/'+tomllib.loads(open(root+'/Cargo.toml').read())['package']['workspace'])+'/Cargo.lock'
    lock='None'
    if os.path.exists(lockf):
        L=tomllib.loads(open(lockf).read())
        lp=lambda x:'{| lp_name := %s; lp_version := %s; lp_dependencies := %s |}'%(q(x['name']),q(x['version']),opt(qs(x['dependencies'])) if 'dependencies' in x else 'None')
        lock='(Some {| lk_root := %s; lk_package := %s |})'%(opt(lp(L['root'])) if 'root' in L else 'None', opt(lst([lp(x) for x in L['package']])) if 'package' in L else 'None')
    pkgs=lst(['{| mp_ref := {| pk_name := %s; pk_version := Some %s |}; mp_dependencies := %s; mp_targets := [(%s, %s)]; mp_manifest_path := %s |}'%(
      q(p['name']),q(p['version']),lst(['(%s, %s)'%(q(n),'None' if t is None else opt(meta_of(t))) for n,t in p['deps']]),qs(p['kinds']),cpath(rel(p['dir']+'/'+p['libname'])),q('/'.join(rel(p['dir']+'/Cargo.toml')))) for p in pk.values()])
    cargo='{| cg_manifest_path := %s; cg_binding_crate_name := %s; cg_lock := %s; cg_packages := %s; cg_expand := fun _ => None |}'%(q('/'.join(rel(root+'/Cargo.toml'))),q(pk[os.path.normpath(root)]['name']),lock,pkgs)
    disk=[(rel(f),translate(open(f).read())) for f in files]
    return d,cargo,disk
def emit(name,iscrate):
    base=name.replace('.skip_warning_as_error','')
    s=''
    if iscrate:
        d,cargo,disk=crate(name)
        s+='(** ** tests/rust/%s *)\n'%name
        s+='Definition %s_disk : list (cpath * list sitem) := [\n  %s].\n'%(base,';\n  '.join('(%s, [\n    %s])'%(cpath(p),';\n    '.join(wrap(i) for i in its)) for p,its in disk))
        s+='Definition %s_cargo : Cargo := %s.\n'%(base,wrap(cargo))
        inp='(in_crate %s_disk %s_cargo)'%(base,base)
    else:
        its,d=load(name)
        s+='(** ** tests/rust/%s.rs *)\n'%name
        s+='Definition %s_rs : list sitem := [\n  %s].\n'%(base,';\n  '.join(wrap(i) for i in its))
        inp='(in_file %s_rs)'%base
    bf=bl(d.get('macro_expansion',{}).get('bitflags'))
    if {k:v for k,v in d.items() if k!='macro_expansion'}:
        lang={'c':'M_Config.C','cython':'Cython'}.get(d.get('language','c++').lower(),'Cxx')
        pc=d.get('parse',{})
        c=config(d,lang,d.get('cpp_compat',False),None)
        if iscrate and pc:
            c=c.replace('parse := default_parse','parse := {| pa_parse_deps := %s; pa_include := %s; pa_exclude := %s; pa_expand_crates := []; pa_extra_bindings := %s |}'%(bl(pc.get('parse_deps')),'None' if pc.get('include') is None else '(Some %s)'%qs(pc['include']),qs(pc.get('exclude',[])),qs(pc.get('extra_bindings',[]))))
        s+='Definition %s_toml : Config := %s.\n'%(base,c)
        cf=base+'_toml'
    else: cf='default_config'
    texts={};rows=[];k=0
    seen={};seenp={}
    for (n,l,cc,st,ext,lx) in VARS:
        ef=E+base+ext+lx
        ss=seenp if l=='Cython' else ({} if l=='Cxx' else seen)
        if os.path.exists(ef):
            t=open(ef,newline='').read()
            nm='%s_%s'%(base,n.strip('_'))
            s+='(** tests/expectations/%s *)\nDefinition %s : string := %s.\n'%(base+ext+lx,nm,lit(t))
            ss[nm]=t
            rows.append('(%s, [%s])'%(run_as(l,cc,st),nm))
        else:
            # a duplicate of one of the earlier ones
            rows.append('(%s, [%s])'%(run_as(l,cc,st),'; '.join(ss)))
    sym='None'
    sf=S+base+'.c.sym'
    if os.path.exists(sf): sym='(Some %s)'%lit(open(sf).read())
    s+='Example %s_reproduced : reproduces %s %s %s %s\n  [%s] = true.\nProof. vm_compute. reflexivity. Qed.\n\n'%(base,inp,bf,cf,sym,';\n   '.join(rows))
    return s
COMMON='''(** The project's own test suite run on the model: for each file (or crate) in
    tests/rust, with its configuration, everything tests/tests.rs compares with
    tests/expectations and tests/expectations-symbols (tests.rs:243-420): C with
    and without C++ compatibility in three styles, C++, and Cython in two styles.
    A file missing there stands for text already written for an earlier style.

    The sources are given as syntax trees, generated from the files by a script. *)
Require Import Coq.Strings.String Coq.Strings.Ascii Coq.Lists.List Coq.Bool.Bool Coq.NArith.NArith.
From Verif Require Import Base M_Config M_Cfg M_Type M_Ir M_Item M_Attr M_Syn M_Library M_Loader M_Parser M_Bindings M_Backend S_Heck.
Import ListNotations.
Open Scope string_scope.

Inductive run_as := RunC (compat : bool) (s : Style) | RunCxx | RunCython (s : Style).
(** tests.rs:65-88, main.rs:28-73: C++ is run without [--lang] and [--style]. *)
Definition with_run (r : run_as) (c : Config) : Config :=
  let '(lang, compat, st) := match r with
                             | RunC compat s => (M_Config.C, compat || cpp_compat c, s)
                             | RunCxx => (language c, cpp_compat c, style c)
                             | RunCython s => (Cython, cpp_compat c, s)
                             end in
  {| header := header c; includes_ := includes_ c; sys_includes_ := sys_includes_ c; after_includes := after_includes c; trailer := trailer c;
     include_guard_ := include_guard_ c; pragma_once := pragma_once c; no_includes := no_includes c; package_version := package_version c;
     autogen_warning := autogen_warning c; include_version := include_version c; namespace := namespace c; namespaces := namespaces c;
     using_namespaces := using_namespaces c; braces := braces c; line_length := line_length c; tab_width := tab_width c;
     line_endings := line_endings c; language := lang; cpp_compat := compat; style := st; sort_by := sort_by c;
     usize_is_size_t := usize_is_size_t c; parse := parse c; export := export c; layout := layout c; function := function c;
     structure := structure c; enumeration := enumeration c; constant := constant c; defines := defines c; documentation := documentation c;
     documentation_style := documentation_style c; documentation_length := documentation_length c; pointer := pointer c;
     cython := cython c; config_path := config_path c |}.

Record input := { in_disk : disk; in_srcs : list cpath; in_cargo : option Cargo }.
Definition same_path (p q : cpath) : bool := if list_eq_dec string_dec p q then true else false.
Definition disk_of (files : list (cpath * list sitem)) : disk :=
  {| dk_exists := fun p => existsb (fun f => same_path (fst f) p) files;
     dk_items := fun p => option_map snd (find (fun f => same_path (fst f) p) files) |}.
Definition in_file (items : list sitem) : input :=
  {| in_disk := disk_of [(["test.rs"], items)]; in_srcs := [["test.rs"]]; in_cargo := None |}.
Definition in_crate (files : list (cpath * list sitem)) (cargo : Cargo) : input :=
  {| in_disk := disk_of files; in_srcs := []; in_cargo := Some cargo |}.

(** From sources to bindings, and to the text of the header *)
Definition bindings_of {H : Heck} (i : input) (bitflags : bool) (c : Config) : outcome Bindings :=
  match parse_all (in_disk i) c bitflags 30 30 true (in_srcs i) (in_cargo i) with
  | Parsed l => generate 60 (fun x => x) l
  | Failed | Panicked => Panic
  | Endless => Diverge
  end.
Definition reproduces (i : input) (bitflags : bool) (c : Config) (symbols : option string) (expected : list (run_as * list string)) : bool :=
  forallb (fun r => match @bindings_of ascii_heck i bitflags (with_run (fst r) c) with
                    | Done b => match @bindings_text ascii_heck 60 b with Done t => mem_str t (snd r) | _ => false end
                                && match fst r, symbols with
                                   | RunC false Type_, Some s => String.eqb (symfile_text b) s
                                   | _, _ => true
                                   end
                    | _ => false
                    end) expected.
'''
HD='''(** See S_Suite.v; generated. *)
Require Import Coq.Strings.String Coq.Strings.Ascii Coq.Lists.List Coq.Bool.Bool Coq.NArith.NArith.
From Verif Require Import Base M_Config M_Cfg M_Type M_Ir M_Item M_Attr M_Syn M_Library M_Loader M_Parser M_Bindings M_Backend S_Heck S_Suite.
Import ListNotations.
Open Scope string_scope.

'''
if __name__=='__main__':
    names=[(os.path.basename(f)[:-3],False) for f in sorted(glob.glob(T+'*.rs'))]
    CR=['dep_v2','derive_eq','external_workspace_child','literal_target','mod_2015','mod_2018','mod_attr','mod_path','package_version','rename_crate','workspace']
    names+=[(c,True) for c in CR]
    open(OUT+'/S_Suite.v','w').write(COMMON)
    blocks=[(n,emit(n,c)) for n,c in names]
    cur=HD;k=1;size=0
    def flush():
        global cur,k,size
        open(OUT+'/S_Suite%02d.v'%k,'w').write(cur); k+=1; cur=HD; size=0
    for n,b in blocks:
        if size and size+len(b)>110000: flush()
        cur+=b; size+=len(b)
    flush()
    print(k-1,'files')
