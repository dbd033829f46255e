"""Turns a snapshot input directory of /repo into a Coq file (SnapXxx.v) with what packages.Load would have returned
for it, and the claim that the model's index of it is the golden output, byte for byte.
usage: emit.py DIR MODULE_NAME OUT.v"""
import os, sys, hashlib
sys.path.insert(0, os.path.dirname(os.path.abspath(__file__)))
from gofront import *
import gofront
from stubs import STUBS

ROOT = "/repo/internal/testdata/snapshots"
def q(s):
    return '"' + s.replace('"', '""') + '"'
def lst(l): return "[" + "; ".join(l) + "]"
def opt(x, f=lambda x: x): return "None" if x is None else f"(Some {f(x)})"

# ------------------------------------------------------------------ types printed as in go/types (for the tables)
def tstr(t, qf):
    def name(o): return (qf(o.pkg) + "." if o.pkg is not None and qf(o.pkg) else "") + o.name
    def go(t, bare=False):
        if isinstance(t, Basic): return t.name
        if isinstance(t, (Named, Alias)):
            s = name(t.obj)
            if t.targs: return s + "[" + ", ".join(map(go, t.targs)) + "]"
            if t.tparams: return s + tps(t.tparams)
            return s
        if isinstance(t, Pointer): return "*" + go(t.t)
        if isinstance(t, Slice): return "[]" + go(t.t)
        if isinstance(t, Array): return f"[{t.n}]" + go(t.t)
        if isinstance(t, Map): return "map[" + go(t.k) + "]" + go(t.v)
        if isinstance(t, Chan): return ["chan ", "chan<- ", "<-chan "][t.d] + go(t.t)
        if isinstance(t, Struct):
            return "struct{" + "; ".join(("" if f.embedded else f.name + " ") + go(f.typ) + ("" if not g else " " + goquote(g)) for f, g in zip(t.fields, t.tags)) + "}"
        if isinstance(t, Sig):
            def par(l, var):
                out = []
                for j, p in enumerate(l):
                    s = p.name + " " if p.name else ""
                    out.append(s + ("..." + go(p.typ.t) if var and j == len(l) - 1 else go(p.typ)))
                return ", ".join(out)
            s = ("" if bare else "func") + (tps(t.tparams) if t.tparams else "") + "(" + par(t.params, t.variadic) + ")"
            if not t.results: return s
            if len(t.results) == 1 and not t.results[0].name: return s + " " + go(t.results[0].typ)
            return s + " (" + par(t.results, False) + ")"
        if isinstance(t, Interface):
            if t.special == "any": return "any"
            if t.implicit and not t.methods and len(t.embeds) == 1: return go(t.embeds[0])
            return "interface{" + "; ".join([m.name + go(m.typ, True) for m in sorted(t.methods, key=method_id)] + [go(e) for e in t.embeds]) + "}"
        if isinstance(t, TypeParam): return t.obj.name
        if isinstance(t, Union): return " | ".join(("~" if x else "") + go(y) for x, y in t.terms)
        raise TypeError(t)
    def tps(l): return "[" + ", ".join(", ".join(ns) + " " + go(b) for ns, b in groups(l)) + "]"
    return go(t)
def groups(l):
    out = []
    for p in l:
        if out and out[-1][1] is p.bound: out[-1][0].append(p.obj.name)
        else: out.append(([p.obj.name], p.bound))
    return out
def goquote(s): return '"' + s.replace("\\", "\\\\").replace('"', '\\"') + '"'

# ------------------------------------------------------------------ a small gofmt for type literals
def fmt_type(t, qf, ind):
    """layout of a struct or interface type as gofmt prints it"""
    def simple(t): return tstr_f(t, qf, ind)
    if isinstance(t, Struct):
        rows = [("" if f.embedded else f.name, f.typ, goquote(g) if g else "", None) for f, g in zip(t.fields, t.tags)]
        kw = "struct"
    else:
        rows = [(None, m.name, "", m) for m in sorted(t.methods, key=method_id)] + [("", e, "", None) for e in t.embeds]
        kw = "interface"
    if not rows: return kw + "{}"
    def text(r, ind):
        if r[3] is not None: return r[1] + fmt_any(r[3].typ, qf, ind, True)
        return fmt_any(r[1], qf, ind)
    if len(rows) == 1 and not rows[0][2]:
        one = text(rows[0], ind)
        size = len(one) - (len(rows[0][1]) if rows[0][3] is not None else 0)
        if "\n" not in one and (1 if rows[0][0] or rows[0][3] is not None else 0) + size <= 30:
            return kw + "{ " + (rows[0][0] + " " if rows[0][0] else "") + one + " }"
    lines, block = [], []
    def flush():
        w = max([len(n) for n, x, g in block if n] or [0])
        for n, x, g in block:
            lines.append("\t" * (ind + 1) + ((n.ljust(w) + " ") if n else "") + x + ((" " + g) if g else ""))
        block.clear()
    for r in rows:
        x = text(r, ind + 1)
        if r[0] == "" or r[0] is None: flush()
        block.append((r[0] or "", x, r[2]))
        if "\n" in x or r[0] == "" or r[0] is None: flush()
    flush()
    # tags are aligned among neighbouring lines of a block: not needed by the inputs with more than one tag per block
    return kw + " {\n" + "\n".join(lines) + "\n" + "\t" * ind + "}"
def fmt_any(t, qf, ind, bare=False):
    if isinstance(t, Basic) or isinstance(t, (Named, Alias, TypeParam, Union)): return tstr(t, qf)
    if isinstance(t, Pointer): return "*" + fmt_any(t.t, qf, ind)
    if isinstance(t, Slice): return "[]" + fmt_any(t.t, qf, ind)
    if isinstance(t, Map): return "map[" + fmt_any(t.k, qf, ind) + "]" + fmt_any(t.v, qf, ind)
    if isinstance(t, Struct) or (isinstance(t, Interface) and not t.special and not t.implicit): return fmt_type(t, qf, ind)
    s = tstr(t, qf)
    return s[4:] if bare else s

# ------------------------------------------------------------------ loading
class Module:
    def __init__(s, path, version, dir, gomod, replace=None): s.path, s.version, s.dir, s.gomod, s.replace = path, version, dir, gomod, replace
    def coq(s): return f"(GMod {q(s.path)} {q(s.version)} {q(s.dir)} {q(s.gomod)} {opt(s.replace, lambda r: r.coq())})"
class Loaded:
    def __init__(s, path, name, module, project): s.path, s.name, s.module, s.project = path, name, module, project; s.pkg = s.chk = None; s.files = []; s.deps = []

class World:
    def __init__(s, d):
        s.dir = d; s.inp = f"{ROOT}/input/{d}"; s.pkgs = {}; s.list = []; s.base = 1; s.srcs = []; s.gomods = []
        s.stubbase = 10**7; s.roots = []; s.driver = os.path.exists(s.inp + "/driver/main.go")
        s.modules = {}
        gm = s.inp + "/go.mod"
        if os.path.exists(gm):
            txt = open(gm).read(); s.mpath = re.search(r"module (\S+)", txt).group(1); s.mdir, s.mgomod = s.inp, gm
            for old, new in re.findall(r"replace (\S+) => (\S+)", txt):
                nd = os.path.normpath(s.inp + "/" + new)
                s.modules[old] = (Module(old, re.search(re.escape(old) + r" (v\S+)", txt).group(1), nd, nd + "/go.mod", Module(new, "", nd, nd + "/go.mod")), nd)
                s.gomods.append((nd + "/go.mod", re.search(r"module (\S+)", open(nd + "/go.mod").read()).group(1)))
        else: s.mpath, s.mdir, s.mgomod = "github.com/scip-code/scip-go", "/repo", "/repo/go.mod"
        s.main = Module(s.mpath, "", s.mdir, s.mgomod)
        s.load()
    def dirs(s):
        for r, ds, fs in sorted(os.walk(s.inp)):
            if r != s.inp and "go.mod" in fs: ds[:] = []; continue
            ds.sort(); ds[:] = [d for d in ds if not os.path.exists(os.path.join(r, d, "go.mod"))]
            gs = sorted(f for f in fs if f.endswith(".go"))
            if gs: yield r, gs
    def path_of(s, r): return s.mpath + r[len(s.mdir):]
    def parse(s, fn, stub=None):
        if stub is not None:
            src = stub.encode(); f = Parser(src, s.stubbase).file(); s.stubbase += len(src) + 1; return f
        src = open(fn, "rb").read(); f = Parser(src, s.base).file(); f.filename = fn; f.srctext = src
        s.srcs.append((fn, s.base, src)); s.base += len(src) + 1; return f
    def resolve(s, path):
        if path in s.pkgs: return s.pkgs[path].pkg
        for old, (m, nd) in s.modules.items():
            if path == old or path.startswith(old + "/"):
                fs = [open(nd + "/" + f).read() for f in sorted(os.listdir(nd)) if f.endswith(".go")]
                return s.stub(path, fs, m)
        if path in STUBS: return s.stub(path, [STUBS[path]], None)
        for r, gs in s.todo:
            if s.path_of(r) == path:
                s.source(r, gs); return s.pkgs[path].pkg
        raise KeyError(path)
    def stub(s, path, texts, module):
        files = [s.parse(None, t) for t in texts]
        l = Loaded(path, files[0].name.name, module, False); l.pkg = Pkg(path, l.name); s.pkgs[path] = l
        c = Checker(l.pkg, s.resolve); c.check(files); l.chk = c
        l.deps = list(l.pkg.imports); s.list.append(l)
        return l.pkg
    def variant(s, path, files, key):
        l = Loaded(path, files[0].name.name, s.main, True); l.pkg = Pkg(path, l.name)
        if key: s.pkgs[key] = l
        l.files = files; l.chk = Checker(l.pkg, s.resolve); l.chk.check(files); l.deps = list(l.pkg.imports); s.list.append(l); s.roots.append(l)
        return l
    def source(s, r, gs):
        if r in s.done: return
        s.done.add(r); path = s.path_of(r)
        def ok(f):
            t = open(r + "/" + f).read(); m = re.search(r"^//go:build (.*)$", t, re.M)
            if not m: return True
            tags = {"darwin", "arm64", "unix"}  # the golden files were made on a Mac
            return eval(re.sub(r"\w+", lambda w: str(w.group() in tags), m.group(1)).replace("!", " not ").replace("&&", " and ").replace("||", " or "))
        gs = [f for f in gs if ok(f)]
        if not gs: return
        # go list parses the files of each variant anew; the file sets of the variants are disjoint here, as positions are
        plain = [f for f in gs if not f.endswith("_test.go")]
        ins = []; ext = []
        for f in gs:
            if f.endswith("_test.go"):
                nm = re.search(r"^package (\w+)", open(r + "/" + f).read(), re.M).group(1)
                (ext if nm.endswith("_test") else ins).append(f)
        if plain: s.variant(path, [s.parse(r + "/" + f) for f in plain], path)
        if ins: s.variant(path, [s.parse(r + "/" + f) for f in sorted(plain + ins, key=lambda f: (f in ins, f))], None)
        if ext: s.variant(path + "_test", [s.parse(r + "/" + f) for f in ext], None)
    def load(s):
        s.todo = list(s.dirs()); s.done = set()
        for r, gs in s.todo: s.source(r, gs)

# ------------------------------------------------------------------ Coq terms
class Emit:
    def __init__(s, w): s.w = w; s.out = []; s.objs = {}; s.ptrs = {}; s.tpk = {}; s.hob = {}; s.gofmt = {}; s.digest = {}; s.env = {}; s.named = []; s.seen_named = set()
    def tn(s, o):
        if isinstance(o.typ, Named) and o.id not in s.env:
            s.named.append(o); s.env[o.id] = None; s.env[o.id] = s.ty(under(o.typ)) if o.typ.under is not None else "TStruct []"
        return f"(TName {o.id} {opt(o.pkg, lambda p: q(p.path))} {q(o.name)})"
    def ty(s, t):
        if isinstance(t, Basic): return f"(TBasic {t.kind} {str(t.alias).lower()})"
        if isinstance(t, Named): return f"(TNamed {s.tn(t.obj)} {lst(map(s.ty, t.targs))})"
        if isinstance(t, Alias): return f"(TAlias {s.tn(t.obj)} {s.ty(t.rhs)})"
        if isinstance(t, Pointer): return f"(TPointer {s.ty(t.t)})"
        if isinstance(t, Slice): return f"(TSlice {s.ty(t.t)})"
        if isinstance(t, Array): return f"(TArray {t.n} {s.ty(t.t)})"
        if isinstance(t, Map): return f"(TMap {s.ty(t.k)} {s.ty(t.v)})"
        if isinstance(t, Chan): return f"(TChan {t.d} {s.ty(t.t)})"
        if isinstance(t, Tuple): return f"(TTuple {lst(map(s.ty, t.ts))})"
        if isinstance(t, Sig): return f"(TSig {lst(s.ty(p.typ) for p in t.params)} {lst(s.ty(p.typ) for p in t.results)} {str(t.variadic).lower()})"
        if isinstance(t, Struct):
            return "(TStruct " + lst(f"(FHdr {f.id} {q(f.name)} {opt(f.pkg, lambda p: q(p.path))} {str(f.embedded).lower()} {q(g)}, {s.ty(f.typ)})" for f, g in zip(t.fields, t.tags)) + ")"
        if isinstance(t, Interface):
            ts = " ".join(tstr(e, lambda p: p.path) for e in t.embeds if not isinstance(under(e), Interface)) or (t.special if t.special == "comparable" else "")
            return "(TInterface " + lst(f"({q(method_id(m))}, {s.ty(m.typ)})" for m in iface_methods(t)) + f" {q(ts or '')})"
        if isinstance(t, TypeParam): return f"(TTypeParam (TName {t.obj.id} {opt(t.obj.pkg, lambda p: q(p.path))} {q(t.obj.name)}) {t.index})"
        if isinstance(t, Union): return "(TUnion " + lst(f"({str(x).lower()}, {s.ty(y)})" for x, y in t.terms) + ")"
        raise TypeError(t)
    def pkg(s, p):
        if p is None: return "None"
        if p not in s.tpk:
            s.tpk[p] = f"k{len(s.tpk)}"
            es = [f"SEntry {q(n)} {str(o.kind == 'type').lower()} {s.ty(o.typ) if o.kind == 'type' else '(TBasic BInvalid false)'}" for n, o in sorted(p.scope.items())]
            s.out.append(f"Definition {s.tpk[p]} : tpkg := TPkg {q(p.path)} {lst(es)}.")
        return f"(Some {s.tpk[p]})"
    def obj(s, o):
        if o is None: return "None"
        if o.id in s.objs: return s.objs[o.id]
        pk = s.pkg(o.pkg); org = "None"
        if o.origin is not None: org = f"(Some {s.obj(o.origin)})"
        if o.kind == "pkgname": k = f"(OPkgName {q(o.path)})"
        elif o.kind == "const": k = "OConst"
        elif o.kind == "type": k = "OTypeName"
        elif o.kind == "var": k = f"(OVar {str(o.field).lower()})"
        elif o.kind == "func": k = f"(OFunc (Some {opt(o.typ.recv, s.ty)}))"
        elif o.kind == "builtin": k = "OBuiltin"
        elif o.kind == "nil": k = "ONil"
        nm = f"o{o.id}"; s.objs[o.id] = nm
        t = s.ty(o.typ)
        s.out.append(f"Definition {nm} : obj := Obj {o.id} {q(o.name)} {pk} {o.pos} {k} {t} {org}.")
        return nm
    # ---------------- syntax
    def ptr(s, n):
        if n not in s.ptrs: s.ptrs[n] = len(s.ptrs) + 1
        return s.ptrs[n]
    def id(s, i): return f"(Ident {s.ptr(i)} {q(i.name)} {i.pos})"
    def fl(s, f): return f"(NFieldList {lst(map(s.node, f.fields))})"
    def docs(s, d): return q(comment_text(d))
    def nodes(s, l): return lst(s.node(x) for x in l if x is not None and x.kind != "BasicLit")
    def other(s, n, *ch):
        l = []
        for c in ch: l += c if isinstance(c, list) else [c]
        return f"(NOther {n.pos} {s.nodes(l)})"
    def node(s, n):
        k, p = n.kind, n.pos
        if k == "Ident": return f"(NIdent {s.id(n)})"
        if k == "BasicLit": return f"(NOther {p} [])"
        if k == "Field": return f"(NField {s.docs(n.doc)} {s.docs(n.cmt)} {lst(map(s.id, n.names))} {s.node(n.typ)})"
        if k == "FieldList": return s.fl(n)
        if k == "StructType": return f"(NStructType {s.ptr(n)} {p} {s.fl(n.fields)})"
        if k == "InterfaceType": return f"(NInterfaceType {s.ptr(n)} {p} {s.fl(n.methods)})"
        if k == "FuncType": return f"(NFuncType {p} {s.fl(n.tparams)} {s.fl(n.params)} {s.fl(n.results)})"
        if k == "MapType": return f"(NMapType {p} {s.node(n.key)} {s.node(n.value)})"
        if k == "ArrayType": return f"(NArrayType {p} {opt(n.len, s.node)} {s.node(n.elt)})"
        if k == "ChanType": return f"(NChanType {p} {s.node(n.value)})"
        if k in ("StarExpr", "ParenExpr", "UnaryExpr"): return f"(N{k} {p} {s.node(n.x)})"
        if k == "BinaryExpr": return f"(NBinaryExpr {s.node(n.x)} {s.node(n.y)})"
        if k == "IndexExpr": return f"(NIndexExpr {s.node(n.x)} {s.node(n.index)})"
        if k == "IndexListExpr": return f"(NIndexListExpr {s.node(n.x)} {lst(map(s.node, n.indices))})"
        if k == "SelectorExpr": return f"(NSelectorExpr {s.node(n.x)} {s.id(n.sel)})"
        if k == "FuncLit": return f"(NFuncLit {s.node(n.typ)} {s.node(n.body)})"
        if k == "BlockStmt": return f"(NBlockStmt {p} {s.nodes(n.stmts)})"
        if k == "ImportSpec": return f"(NImportSpec {s.ptr(n)} {opt(n.name, s.id)} {n.path_pos} {q(goquote(n.path))})"
        if k == "TypeSpec": return f"(NTypeSpec {s.docs(n.doc)} {s.id(n.name)} {s.fl(n.tparams)} {s.node(n.typ)})"
        if k == "ValueSpec": return f"(NValueSpec {s.docs(n.doc)} {s.docs(n.cmt)} {lst(map(s.id, n.names))} {opt(n.typ, s.node)} {s.nodes(n.values)})"
        if k == "GenDecl": return f"(NGenDecl {p} {n.tok.upper()} {s.docs(n.doc)} {lst(map(s.node, n.specs))})"
        if k == "FuncDecl": return f"(NFuncDecl {s.docs(n.doc)} {p} {n.end} {opt(n.recv, s.fl)} {s.id(n.name)} {s.node(n.typ)} {opt(n.body, s.node)})"
        if k == "File": return f"(NFile {p} {str(n.doc is not None).lower()} {s.docs(n.doc)} {s.id(n.name)}\n  [" + ";\n   ".join(map(s.node, n.decls)) + "])"
        ch = {"CompositeLit": lambda: [n.typ, n.elts], "KeyValueExpr": lambda: [n.key, n.value], "CallExpr": lambda: [n.fun, n.args], "Ellipsis": lambda: [n.elt],
              "TypeAssertExpr": lambda: [n.x, n.typ], "DeclStmt": lambda: [n.decl], "ReturnStmt": lambda: [n.results], "ExprStmt": lambda: [n.x], "GoStmt": lambda: [n.call],
              "IncDecStmt": lambda: [n.x], "SendStmt": lambda: [n.chan, n.value], "AssignStmt": lambda: [n.lhs, n.rhs], "IfStmt": lambda: [n.init, n.cond, n.body, n.els],
              "ForStmt": lambda: [n.init, n.cond, n.post, n.body], "RangeStmt": lambda: [n.key, n.value, n.x, n.body], "SwitchStmt": lambda: [n.init, n.tag, n.body],
              "TypeSwitchStmt": lambda: [n.init, n.assign, n.body], "CaseClause": lambda: [n.list, n.body]}[k]()
        return s.other(n, *[c for c in ch if c is not None])
    # ---------------- signatures
    def hp(s, p): return opt(p, lambda p: f"(HPkg {q(p.path)} {q(p.name)})")
    def tps(s, l): return lst(f"({lst(map(q, ns))}, {s.h(b)})" for ns, b in groups(l))
    def h(s, t):
        if isinstance(t, Basic): return f"(HBasic {q(t.name)})"
        if isinstance(t, Alias) and t.obj is gofront._any: return "HAny"
        if isinstance(t, (Named, Alias)): return f"(HNamed (HName {s.hp(t.obj.pkg)} {q(t.obj.name)}) {lst(map(s.h, t.targs))} {'[]' if t.targs else s.tps(t.tparams)})"
        if isinstance(t, Pointer): return f"(HPointer {s.h(t.t)})"
        if isinstance(t, Slice): return f"(HSlice {s.h(t.t)})"
        if isinstance(t, Array): return f"(HArray {t.n} {s.h(t.t)})"
        if isinstance(t, Map): return f"(HMap {s.h(t.k)} {s.h(t.v)})"
        if isinstance(t, Chan): return f"(HChan {t.d} {s.h(t.t)})"
        if isinstance(t, Struct): return "(HStruct " + lst(f"({q(f.name)}, {str(f.embedded).lower()}, {q(g)}, {s.h(f.typ)})" for f, g in zip(t.fields, t.tags)) + ")"
        if isinstance(t, Sig): return f"(HSig {s.tps(t.tparams)} {lst(f'({q(p.name)}, {s.h(p.typ)})' for p in t.params)} {lst(f'({q(p.name)}, {s.h(p.typ)})' for p in t.results)} {str(t.variadic).lower()})"
        if isinstance(t, Interface):
            if t.special: return {"any": "HAny", "comparable": "HComparable"}[t.special]
            return f"(HInterface {str(t.implicit).lower()} {lst(f'({q(m.name)}, {s.h(m.typ)})' for m in sorted(t.methods, key=method_id))} {lst(map(s.h, t.embeds))})"
        if isinstance(t, TypeParam): return f"(HTypeParam {q(t.obj.name)})"
        if isinstance(t, Union): return "(HUnion " + lst(f"({str(x).lower()}, {s.h(y)})" for x, y in t.terms) + ")"
        raise TypeError(t)
    def need_fmt(s, o, t):
        qf = lambda p: "" if p is o.pkg or p.path == o.pkg.path else p.name
        if isinstance(t, (Struct, Interface)):
            if isinstance(t, Interface) and t.special: return
            src = "package p\n\ntype _ " + tstr(t, qf) + "\n"
            s.gofmt[src] = "package p\n\ntype _ " + fmt_type(t, qf, 0) + "\n"
    def hobj(s, o):
        if o.id in s.hob: return
        k = o.kind
        if k == "pkgname": hk = f"(HPkgName {q(o.path)})"
        elif k == "const": hk = f"(HConst {s.h(o.typ)} {q(constval(o.val))})"
        elif k == "var": hk = f"(HVar {str(o.field).lower()} {s.h(o.typ)})"
        elif k == "func":
            r = o.typ.recv
            hk = f"(HFunc {opt(r, s.h)} {s.h(o.typ)})"
        elif k == "type":
            t = o.typ
            if isinstance(t, Alias): d = f"(DAlias {s.tps(t.tparams)} {s.h(t.rhs)})"; s.need_fmt(o, t.rhs)
            elif isinstance(t, TypeParam): d = f"(DTypeParam {s.h(t.bound)} {s.h(under(t))})"
            else: d = f"(DDefined {s.tps(t.tparams)} {s.h(under(t))})"; s.need_fmt(o, under(t))
            hk = f"(HTypeName {d})"
        s.hob[o.id] = f"HObj {q(o.name)} {s.hp(o.pkg)} {str(o.top).lower()} {hk}"
    # ---------------- the file
    def run(s, name):
        w = s.w; heap = []; infos = []; msets = []; msets_done = set(); scopes = []; levels = []
        index = {l: j + 1 for j, l in enumerate(w.list)}
        bykey = {}
        for l in w.list: bykey.setdefault(l.path, l)
        for key, l in w.pkgs.items(): bykey[key] = l
        for l in w.list:
            c = l.chk; ptr = index[l]
            if l.project:
                for j, f in enumerate(l.files):
                    s.out.append(f"(* {f.filename[len(ROOT)+7:]} *)\nDefinition f{ptr}_{j} : node := {s.node(f)}.")
                defs = [(s.ptr(i), o) for i, o in c.defs.items() if o is not None]
                uses = [(s.ptr(i), o) for i, o in c.uses.items()]
                pk = [(s.ptr(i), o) for i, o in c.pkgname.items()]
                canon = [(s.ptr(n), t) for n, t in c.types.items() if n.kind in ("StructType", "InterfaceType")]
                for _, o in defs: s.obj(o); s.hobj(o)
                for _, o in uses + pk: s.obj(o)
                for o in c.cases: s.obj(o); s.hobj(o)
                for _, t in canon:
                    x = tstr(t, lambda p: p.path); s.digest[x] = hashlib.sha256(x.encode()).hexdigest()[:16]
                tl = lambda l: lst(f"({i}, {s.objs[o.id]})" for i, o in l)
                s.out.append(f"Definition defs{ptr} : list (nat * obj) := {tl(defs)}.")
                s.out.append(f"Definition uses{ptr} : list (nat * obj) := {tl(uses)}.")
                s.out.append(f"Definition canon{ptr} : list (nat * hty) := " + lst(f"({i}, {s.h(t)})" for i, t in canon) + ".")
                s.out.append(f"Definition pkgnames{ptr} : list (nat * obj) := {tl(pk)}.")
                s.out.append(f"Definition cases{ptr} : list obj := {lst(s.objs[o.id] for o in c.cases)}.")
                tys = [o for _, o in defs if o.kind == "type" and isinstance(o.typ, Named) and l.pkg.scope.get(o.name) is o]
                levels.append((ptr, [o.id for o in tys]))
            else:
                tys = [o for n, o in sorted(l.pkg.scope.items()) if o.kind == "type"]
                scopes.append((ptr, lst(s.obj(o) for n, o in sorted(l.pkg.scope.items()))))
            for o in tys:
                if isinstance(o.typ, Named):
                    msets_done.add(o.id)
                    a, b = method_set(o.typ), method_set(Pointer(o.typ))
                    if isinstance(under(o.typ), Interface): a, b = iface_methods(under(o.typ)), []
                    msets.append(f"({o.id}, ({lst(s.obj(m) for m in a)}, {lst(s.obj(m) for m in b)}))")
            s.pkg(l.pkg)
        for o in s.named: # grows: other named types, such as error
            if o.id in msets_done or o.typ.under is None: continue
            msets_done.add(o.id)
            a, b = method_set(o.typ), method_set(Pointer(o.typ))
            if isinstance(under(o.typ), Interface): a, b = iface_methods(under(o.typ)), []
            msets.append(f"({o.id}, ({lst(s.obj(m) for m in a)}, {lst(s.obj(m) for m in b)}))")
        # objects may have been recorded for methods of the universe
        o = s.out
        o.append("Definition hobjs : list (nat * hobj) := [" + ";\n  ".join(f"({i}, {x})" for i, x in s.hob.items()) + "].")
        o.append("Definition unders : list (nat * ty) := [" + ";\n  ".join(f"({i}, {x})" for i, x in s.env.items()) + "].")
        o.append("Definition msets : list (nat * (list obj * list obj)) := [" + ";\n  ".join(msets) + "].")
        o.append("Definition digests : list (string * string) := [" + ";\n  ".join(f"({q(a)}, {q(b)})" for a, b in s.digest.items()) + "].")
        o.append("Definition formatted : list (string * string) := [" + ";\n  ".join(f"({q(a)}, {q(b)})" for a, b in s.gofmt.items()) + "].")
        o.append("Definition sources : list src := [" + ";\n  ".join(f"Src {q(n)} {b} {q(t.decode())} []" for n, b, t in w.srcs) + "].")
        o.append("Definition gomods : list (string * string) := " + lst(f"({q(a)}, {q(b)})" for a, b in w.gomods) + ".")
        for l in w.list:
            p = index[l]
            imps = lst(f"({q(d)}, {index[bykey[d]]})" for d in l.deps)
            info = f"(Some (Raw defs{p} uses{p} pkgnames{p} cases{p} canon{p}))" if l.project else "None"
            files = lst(f"f{p}_{j}" for j in range(len(l.files)))
            mod = "None" if w.driver else opt(l.module, lambda m: m.coq())
            o.append(f"Definition p{p} : gpkg * option raw := (GPkg {p} {q(l.path)} {q(l.name)} {mod} {imps} {files} (Some {s.tpk[l.pkg]}) None, {info}).")
        o.append("Definition packages : list (gpkg * option raw) := " + lst(f"p{index[l]}" for l in w.list) + ".")
        o.append("Definition roots : list nat := " + lst(str(index[l]) for l in w.roots) + ".")
        o.append("Definition scopes : list (nat * list obj) := " + lst(f"({p}, {x})" for p, x in scopes) + ".")
        o.append("Definition levels : list nat := " + lst(str(i) for _, x in levels for i in x) + ".")
        o.append(f"Definition input : input := Input {q(w.inp)} {q('sg/' + w.dir)} {str(w.driver).lower()} sources packages roots gomods digests formatted hobjs unders msets scopes levels.")
        out = f"{ROOT}/output/{w.dir}"
        rels = sorted((os.path.relpath(os.path.join(r, f), out) for r, _, fs in os.walk(out) for f in fs), key=lambda x: x.encode())
        gold = [f"({q(rel)}, {q(open(os.path.join(out, rel)).read())})" for rel in rels]
        o.append("Definition golden : list (string * string) := [" + ";\n  ".join(gold) + "].")
        return "\n".join(o)

def constval(v):
    if v is None: return ""
    if isinstance(v, tuple):
        s = goquote(v[1]).replace("\n", "\\n")
        if len(s) > 72: s = s[:72 - 3] + "..."
        return s
    if isinstance(v, float): return repr(v)
    return str(v)

HEAD = '''(** Generated by tools/snapshot/emit.py from /repo/internal/testdata/snapshots/{input,output}/%s: what packages.Load
    returns for that directory (syntax, types, modules; dependencies reduced to the declarations used), and the golden output. *)
From Coq Require Import Ascii String.
From stdpp Require Import prelude strings gmap.
From Verif Require Import GoStr Scip GoTypes Ast Packages Source Signature Snapshot Contract.
Open Scope string_scope.
Open Scope list_scope.
'''
FOOT = '''
(** The model, run on the input directory, gives the golden files of /repo. *)
Example %s : snapshot input = Some golden.
Proof. vm_compute. reflexivity. Qed.
(** The directory meets the hypotheses of the theorems (Contract.scopes_contract_ok). *)
Example %s_contract : contract input = true ∧ scopesb input = true.
Proof. split; vm_compute; reflexivity. Qed.
'''
if __name__ == "__main__":
    d, name, out = sys.argv[1:4]
    w = World(d)
    body = Emit(w).run(name)
    open(out, "w").write(HEAD % d + body + "\n" + (FOOT % (("snapshot_" + re.sub(r"\W", "_", d),) * 2)))
