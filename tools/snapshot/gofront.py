"""A small Go front end (scanner, parser, type checker) for the snapshot inputs of /repo: it plays the role of
go/parser, go/types and go/packages, which the Coq model takes as given.  Only what those inputs use."""
import re

# ------------------------------------------------------------------ scanner
KEYWORDS = set("""break case chan const continue default defer else fallthrough for func go goto if import
interface map package range return select struct switch type var""".split())
OPS = ["<<=", ">>=", "&^=", "...", "&&", "||", "<-", "++", "--", "==", "!=", "<=", ">=", ":=", "+=", "-=", "*=", "/=",
       "%=", "&=", "|=", "^=", "<<", ">>", "&^", "+", "-", "*", "/", "%", "&", "|", "^", "<", ">", "=", "!", "(", ")",
       "[", "]", "{", "}", ",", ";", ".", ":", "~"]

class Tok:
    __slots__ = ("kind", "lit", "off")
    def __init__(self, kind, lit, off): self.kind, self.lit, self.off = kind, lit, off
    def __repr__(self): return f"{self.kind}:{self.lit}@{self.off}"

def scan(src):
    """src: bytes.  Tokens with kind in ident, int, float, string, char, comment, op/keyword text, ';', EOF"""
    toks, i, n, semi = [], 0, len(src), False
    text = src.decode("latin-1")  # one char per byte
    while True:
        while i < n and (text[i] in " \t\r" or (text[i] == "\n" and not semi)): i += 1
        if i >= n:
            if semi: toks.append(Tok(";", "\n", i))
            toks.append(Tok("EOF", "", i)); return toks
        c = text[i]
        if c == "\n":
            toks.append(Tok(";", "\n", i)); semi = False; i += 1; continue
        if text.startswith("//", i):
            j = text.find("\n", i); j = n if j < 0 else j
            toks.append(Tok("comment", src[i:j].decode().rstrip("\r"), i)); i = j; continue
        if text.startswith("/*", i):
            j = text.index("*/", i) + 2
            toks.append(Tok("comment", src[i:j].decode(), i)); i = j; continue
        m = re.compile(r"[A-Za-z_\x80-\xff][A-Za-z0-9_\x80-\xff]*").match(text, i)
        if m:
            w = src[i:m.end()].decode()
            toks.append(Tok(w if w in KEYWORDS else "ident", w, i))
            semi = w not in KEYWORDS or w in ("break", "continue", "fallthrough", "return"); i = m.end(); continue
        m = re.compile(r"0[xX][0-9a-fA-F]+|0o[0-7]+|[0-9]+\.[0-9]*|[0-9]+").match(text, i)
        if m:
            toks.append(Tok("float" if "." in m.group() else "int", m.group(), i)); semi = True; i = m.end(); continue
        if c == '"':
            j = i + 1
            while text[j] != '"': j += 2 if text[j] == "\\" else 1
            toks.append(Tok("string", src[i:j+1].decode(), i)); semi = True; i = j + 1; continue
        if c == "`":
            j = text.index("`", i + 1)
            toks.append(Tok("string", src[i:j+1].decode(), i)); semi = True; i = j + 1; continue
        if c == "'":
            j = i + 1
            while text[j] != "'": j += 2 if text[j] == "\\" else 1
            toks.append(Tok("char", src[i:j+1].decode(), i)); semi = True; i = j + 1; continue
        for op in OPS:
            if text.startswith(op, i):
                toks.append(Tok(op, op, i)); semi = op in (")", "]", "}", "++", "--"); i += len(op); break
        else: raise SyntaxError(f"char {c!r} at {i}")

# ------------------------------------------------------------------ syntax trees
class Node:
    def __init__(self, kind, pos, **kw):
        self.kind, self.pos = kind, pos
        self.__dict__.update(kw)
    def __repr__(self): return f"<{self.kind}@{self.pos}>"

def comment_text(group):
    """ast.CommentGroup.Text"""
    if not group: return ""
    lines = []
    for c in group:
        if c.startswith("//"):
            c = c[2:]
            if c.startswith(" "): c = c[1:]
            elif re.match(r"line |extern |export ", c) or re.match(r"[a-z0-9]+:[a-z0-9]", c): continue
            ls = [c]
        else: ls = c[2:-2].split("\n")
        lines += [l.rstrip(" \t\r\n") for l in ls]
    out = []
    for l in lines:
        if l != "" or (out and out[-1] != ""): out.append(l)
    if out and out[-1] == "": out.pop()
    return "".join(l + "\n" for l in out)

class Parser:
    def __init__(self, src, base):
        self.src, self.base = src, base
        self.toks, self.i = scan(src), -1
        self.prev_off, self.lead, self.line_c = 0, None, None
        self.exprlev = 0
        self.ptr = 0
        self.next()
    def line(self, off): return self.src.count(b"\n", 0, off) + 1
    # parser.next of go/parser, with comment groups
    def group(self, n):
        g, end = [], self.line(self.toks[self.i].off)
        while self.toks[self.i].kind == "comment" and self.line(self.toks[self.i].off) <= end + n:
            t = self.toks[self.i]
            end = self.line(t.off + len(t.lit.encode()))
            g.append(t.lit); self.i += 1
        return g, end
    def next(self):
        self.lead = self.line_c = None
        prev = self.toks[self.i].off if self.i >= 0 else 0
        self.i += 1
        if self.toks[self.i].kind == "comment":
            if self.i > 0 and self.line(self.toks[self.i].off) == self.line(prev):
                g, end = self.group(0)
                if self.line(self.toks[self.i].off) != end or self.toks[self.i].kind in (";", "EOF"): self.line_c = g
            end, g = -1, None
            while self.toks[self.i].kind == "comment": g, end = self.group(1)
            if end + 1 == self.line(self.toks[self.i].off): self.lead = g
        self.tok = self.toks[self.i]
    @property
    def k(self): return self.tok.kind
    def pos(self): return self.base + self.tok.off
    def expect(self, k):
        if self.k != k: raise SyntaxError(f"expected {k}, got {self.tok} line {self.line(self.tok.off)}")
        t = self.tok; p = self.pos(); self.next(); return p
    def got(self, k):
        if self.k == k: self.next(); return True
        return False
    def semi(self):
        if self.k in (")", "}"): return None
        if self.k == "EOF": return None
        if self.k != ";": raise SyntaxError(f"expected ;, got {self.tok} line {self.line(self.tok.off)}")
        if self.tok.lit == ";": self.next(); return self.line_c
        c = self.line_c; self.next(); return c
    def ident(self):
        p, name = self.pos(), self.tok.lit
        self.expect("ident")
        return Node("Ident", p, name=name)
    # ---------------- file
    def file(self):
        doc = self.lead; p = self.expect("package"); name = self.ident(); self.semi()
        decls = []
        while self.k == "import": decls.append(self.gendecl("import", self.importspec))
        while self.k != "EOF": decls.append(self.decl())
        return Node("File", p, doc=doc, name=name, decls=decls, base=self.base)
    def decl(self):
        if self.k == "func": return self.funcdecl()
        return self.gendecl(self.k, {"type": self.typespec, "var": self.valuespec, "const": self.valuespec, "import": self.importspec}[self.k])
    def gendecl(self, kw, f):
        doc = self.lead; p = self.expect(kw); specs = []
        if self.got("("):
            while self.k != ")": specs.append(f(self.lead, kw))
            self.expect(")"); self.semi()
        else: specs.append(f(None, kw))
        return Node("GenDecl", p, tok=kw, doc=doc, specs=specs)
    def importspec(self, doc, kw):
        name = None
        if self.k == "ident": name = self.ident()
        elif self.k == ".": name = Node("Ident", self.pos(), name="."); self.next()
        p, lit = self.pos(), self.tok.lit; self.expect("string"); self.semi()
        return Node("ImportSpec", p, name=name, path_pos=p, path=lit[1:-1])
    def typespec(self, doc, kw):
        name = self.ident(); tps = Node("FieldList", 0, fields=[])
        if self.k == "[" and not (self.toks[self.i+1].kind == "]" or self.toks[self.i+1].kind == "int"):
            tps = self.tparams()
        alias = self.got("="); typ = self.type(); self.semi()
        return Node("TypeSpec", name.pos, doc=doc, name=name, tparams=tps, typ=typ, alias=alias)
    def tparams(self):
        self.expect("["); fields = []
        while self.k != "]":
            names = [self.ident()]
            while self.got(","): names.append(self.ident())
            fields.append(Node("Field", names[0].pos, doc=None, cmt=None, names=names, typ=self.constraint()))
            if not self.got(","): break
        self.expect("]")
        return Node("FieldList", 0, fields=fields)
    def constraint(self):
        x = self.term()
        while self.k == "|": self.next(); y = self.term(); x = Node("BinaryExpr", x.pos, x=x, y=y, op="|")
        return x
    def term(self):
        if self.k == "~": p = self.pos(); self.next(); return Node("UnaryExpr", p, op="~", x=self.type())
        return self.type()
    def valuespec(self, doc, kw):
        names = [self.ident()]
        while self.got(","): names.append(self.ident())
        typ, values = None, []
        if self.k not in ("=", ";", ")"): typ = self.type()
        if self.got("="): values = self.exprlist()
        cmt = self.semi()
        return Node("ValueSpec", names[0].pos, doc=doc, cmt=cmt, names=names, typ=typ, values=values)
    def funcdecl(self):
        doc = self.lead; p = self.expect("func"); recv = None
        if self.k == "(": recv = self.params()
        name = self.ident(); tps = Node("FieldList", 0, fields=[])
        if self.k == "[": tps = self.tparams()
        ft = self.signature(p); ft.tparams = tps
        body, end = None, self.lastend
        if self.k == "{": body = self.block(); end = body.end
        if self.k == ";": self.semi()
        return Node("FuncDecl", p, doc=doc, end=end, recv=recv, name=name, typ=ft, body=body)
    def signature(self, p):
        ps = self.params(); rs = Node("FieldList", 0, fields=[])
        self.lastend = self.prevend()
        if self.k == "(": rs = self.params(); self.lastend = self.prevend()
        elif self.startstype():
            t = self.type(); rs = Node("FieldList", 0, fields=[Node("Field", t.pos, doc=None, cmt=None, names=[], typ=t)]); self.lastend = self.prevend()
        return Node("FuncType", p, tparams=Node("FieldList", 0, fields=[]), params=ps, results=rs)
    def prevend(self):
        t = self.toks[self.i-1]; j = self.i - 1
        while t.kind == "comment": j -= 1; t = self.toks[j]
        return self.base + t.off + len(t.lit.encode())
    def startstype(self): return self.k in ("ident", "*", "[", "map", "chan", "func", "struct", "interface", "(", "<-")
    def params(self):
        self.expect("("); entries = []
        while self.k != ")":
            if self.k == "...":
                p = self.pos(); self.next(); entries.append((None, Node("Ellipsis", p, elt=self.type())))
            else:
                t = self.type()
                if t.kind == "Ident" and self.k not in (",", ")"):
                    if self.k == "...": p = self.pos(); self.next(); t2 = Node("Ellipsis", p, elt=self.type())
                    else: t2 = self.type()
                    entries.append((t, t2))
                else: entries.append((None, t))
            if not self.got(","): break
        self.expect(")")
        fields = []
        if any(n for n, _ in entries):
            names = []
            for n, t in entries:
                names.append(n or t)
                if n is not None:
                    fields.append(Node("Field", names[0].pos, doc=None, cmt=None, names=names, typ=t)); names = []
        else:
            for _, t in entries: fields.append(Node("Field", t.pos, doc=None, cmt=None, names=[], typ=t))
        return Node("FieldList", 0, fields=fields)
    # ---------------- types
    def type(self):
        p = self.pos(); k = self.k
        if k == "ident":
            x = self.ident()
            if self.k == ".": self.next(); x = Node("SelectorExpr", x.pos, x=x, sel=self.ident())
            if self.k == "[" and self.toks[self.i+1].kind != "]": x = self.index(x, True)
            return x
        if k == "*": self.next(); return Node("StarExpr", p, x=self.type())
        if k == "(": self.next(); t = self.type(); self.expect(")"); return Node("ParenExpr", p, x=t)
        if k == "[":
            self.next()
            if self.got("]"): return Node("ArrayType", p, len=None, elt=self.type())
            n = Node("Ellipsis", self.pos(), elt=None) if self.got("...") else self.expr()
            self.expect("]"); return Node("ArrayType", p, len=n, elt=self.type())
        if k == "map": self.next(); self.expect("["); a = self.type(); self.expect("]"); return Node("MapType", p, key=a, value=self.type())
        if k == "chan":
            self.next(); d = 0
            if self.got("<-"): d = 1
            return Node("ChanType", p, dir=d, value=self.type())
        if k == "<-": self.next(); self.expect("chan"); return Node("ChanType", p, dir=2, value=self.type())
        if k == "func": self.next(); return self.signature(p)
        if k == "struct":
            self.next(); self.expect("{"); fields = []
            while self.k != "}":
                doc = self.lead; names = []
                if self.k == "*" or (self.k == "ident" and self.toks[self.i+1].kind in (".", ";", "}", "string", "[") and not (self.toks[self.i+1].kind == "[" and self.toks[self.i+2].kind == "]")):
                    typ = self.type()
                else:
                    names = [self.ident()]
                    while self.got(","): names.append(self.ident())
                    typ = self.type()
                tag = ""
                if self.k == "string": tag = self.tok.lit; self.next()
                cmt = self.semi()
                fields.append(Node("Field", names[0].pos if names else typ.pos, doc=doc, cmt=cmt, names=names, typ=typ, tag=tag))
            self.expect("}")
            return Node("StructType", p, fields=Node("FieldList", 0, fields=fields))
        if k == "interface":
            self.next(); self.expect("{"); fields = []
            while self.k != "}":
                doc = self.lead
                if self.k == "ident" and self.toks[self.i+1].kind == "(":
                    n = self.ident(); ft = self.signature(self.pos()); cmt = self.semi()
                    fields.append(Node("Field", n.pos, doc=doc, cmt=cmt, names=[n], typ=ft))
                else:
                    t = self.constraint(); cmt = self.semi()
                    fields.append(Node("Field", t.pos, doc=doc, cmt=cmt, names=[], typ=t))
            self.expect("}")
            return Node("InterfaceType", p, methods=Node("FieldList", 0, fields=fields))
        raise SyntaxError(f"type expected, got {self.tok} line {self.line(self.tok.off)}")
    def index(self, x, types):
        self.expect("["); self.exprlev += 1; args = []
        while self.k != "]":
            args.append(self.type() if types else self.typeorexpr())
            if not self.got(","): break
        self.exprlev -= 1; self.expect("]")
        if len(args) == 1: return Node("IndexExpr", x.pos, x=x, index=args[0])
        return Node("IndexListExpr", x.pos, x=x, indices=args)
    # ---------------- expressions
    PREC = {"||": 1, "&&": 2, "==": 3, "!=": 3, "<": 3, "<=": 3, ">": 3, ">=": 3, "+": 4, "-": 4, "|": 4, "^": 4,
            "*": 5, "/": 5, "%": 5, "<<": 5, ">>": 5, "&": 5, "&^": 5}
    def exprlist(self):
        l = [self.expr()]
        while self.got(","): l.append(self.expr())
        return l
    def typeorexpr(self):
        return self.expr()
    def expr(self, prec=1):
        x = self.unary()
        while self.PREC.get(self.k, 0) >= prec:
            op = self.k; q = self.PREC[op]; self.next(); y = self.expr(q + 1)
            x = Node("BinaryExpr", x.pos, x=x, y=y, op=op)
        return x
    def unary(self):
        p, k = self.pos(), self.k
        if k in ("+", "-", "!", "^", "&", "<-"): self.next(); return Node("UnaryExpr", p, op=k, x=self.unary())
        if k == "*": self.next(); return Node("StarExpr", p, x=self.unary())
        return self.primary()
    def operand(self):
        p, k = self.pos(), self.k
        if k == "ident": return self.ident()
        if k in ("int", "float", "string", "char"):
            lit = self.tok.lit; self.next(); return Node("BasicLit", p, lk=k, lit=lit)
        if k == "(":
            self.next(); self.exprlev += 1; x = self.expr(); self.exprlev -= 1; self.expect(")"); return Node("ParenExpr", p, x=x)
        if k == "func":
            t = self.type()
            if self.k == "{":
                lev, self.exprlev = self.exprlev, 0; b = self.block(); self.exprlev = lev; return Node("FuncLit", p, typ=t, body=b)
            return t
        return self.type()
    def primary(self):
        x = self.operand()
        while True:
            if self.k == ".":
                self.next()
                if self.got("("):
                    if self.got("type"): t = None
                    else: t = self.type()
                    self.expect(")"); x = Node("TypeAssertExpr", x.pos, x=x, typ=t)
                else: x = Node("SelectorExpr", x.pos, x=x, sel=self.ident())
            elif self.k == "[": x = self.index(x, False)
            elif self.k == "(":
                self.next(); self.exprlev += 1; args = []
                while self.k != ")":
                    args.append(self.expr()); self.got("...")
                    if not self.got(","): break
                self.exprlev -= 1; self.expect(")"); x = Node("CallExpr", x.pos, fun=x, args=args)
            elif self.k == "{" and self.littype(x) and (self.exprlev >= 0 or x.kind not in ("Ident", "SelectorExpr", "IndexExpr", "IndexListExpr")):
                x = self.complit(x)
            else: return x
    def littype(self, x): return x.kind in ("Ident", "SelectorExpr", "IndexExpr", "IndexListExpr", "ArrayType", "StructType", "MapType")
    def complit(self, t):
        p = t.pos if t else self.pos(); self.expect("{"); lev, self.exprlev = self.exprlev, 0; elts = []
        while self.k != "}":
            e = self.elem()
            if self.got(":"): e = Node("KeyValueExpr", e.pos, key=e, value=self.elem())
            elts.append(e)
            if not self.got(","): break
        self.exprlev = lev; self.expect("}")
        return Node("CompositeLit", p, typ=t, elts=elts)
    def elem(self): return self.complit(None) if self.k == "{" else self.expr()
    # ---------------- statements
    def block(self):
        p = self.expect("{"); l = self.stmts(); e = self.expect("}") + 1
        return Node("BlockStmt", p, stmts=l, end=e)
    def stmts(self):
        l = []
        while self.k not in ("}", "case", "default"): l.append(self.stmt())
        return l
    def stmt(self):
        p, k = self.pos(), self.k
        if k in ("var", "const", "type"): return Node("DeclStmt", p, decl=self.decl())
        if k == "{": b = self.block(); self.semi(); return b
        if k == "return":
            self.next(); rs = [] if self.k in (";", "}") else self.exprlist(); self.semi(); return Node("ReturnStmt", p, results=rs)
        if k in ("go", "defer"): self.next(); c = self.expr(); self.semi(); return Node("GoStmt", p, call=c)
        if k == "if": s = self.ifstmt(); self.semi(); return s
        if k == "for": s = self.forstmt(); self.semi(); return s
        if k == "switch": s = self.switch(); self.semi(); return s
        s = self.simple(); self.semi(); return s
    def simple(self):
        p = self.pos()
        if self.k == "range": self.next(); return Node("Range0", p, key=None, value=None, define=False, x=self.expr())
        lhs = self.exprlist(); k = self.k
        if k in (":=", "=", "+=", "-=", "*=", "/="):
            self.next()
            if self.k == "range":
                self.next(); x = self.expr()
                return Node("Range0", p, key=lhs[0], value=lhs[1] if len(lhs) > 1 else None, define=k == ":=", x=x)
            return Node("AssignStmt", p, lhs=lhs, rhs=self.exprlist(), op=k)
        if k in ("++", "--"): self.next(); return Node("IncDecStmt", p, x=lhs[0])
        if k == "<-": self.next(); return Node("SendStmt", p, chan=lhs[0], value=self.expr())
        return Node("ExprStmt", p, x=lhs[0])
    def ifstmt(self):
        p = self.expect("if"); lev, self.exprlev = self.exprlev, -1
        init, cond = None, None
        if self.k != ";": cond = self.simple()
        if self.got(";"): init, cond = cond, self.simple()
        self.exprlev = lev; body = self.block(); els = None
        if self.got("else"): els = self.ifstmt() if self.k == "if" else self.block()
        return Node("IfStmt", p, init=init, cond=cond.x, body=body, els=els)
    def forstmt(self):
        p = self.expect("for"); lev, self.exprlev = self.exprlev, -1
        init = cond = post = None
        if self.k != "{":
            if self.k != ";": cond = self.simple()
            if cond is not None and cond.kind == "Range0":
                self.exprlev = lev; b = self.block()
                return Node("RangeStmt", p, key=cond.key, value=cond.value, define=cond.define, x=cond.x, body=b)
            if self.got(";"):
                init, cond = cond, None
                if self.k != ";": cond = self.simple()
                self.expect(";")
                if self.k != "{": post = self.simple()
        self.exprlev = lev
        return Node("ForStmt", p, init=init, cond=cond.x if cond else None, post=post, body=self.block())
    def switch(self):
        p = self.expect("switch"); lev, self.exprlev = self.exprlev, -1
        init = tag = None
        if self.k != "{":
            if self.k != ";": tag = self.simple()
            if self.got(";"):
                init, tag = tag, None
                if self.k != "{": tag = self.simple()
        self.exprlev = lev; bp = self.expect("{"); clauses = []
        while self.k != "}":
            cp = self.pos(); l = None
            if self.got("default"): pass
            else: self.expect("case"); l = self.exprlist()
            self.expect(":"); clauses.append(Node("CaseClause", cp, list=l, body=self.stmts()))
        self.expect("}")
        body = Node("BlockStmt", bp, stmts=clauses, end=0)
        ts = tag is not None and ((tag.kind == "AssignStmt" and tag.rhs[0].kind == "TypeAssertExpr" and tag.rhs[0].typ is None) or
                                  (tag.kind == "ExprStmt" and tag.x.kind == "TypeAssertExpr" and tag.x.typ is None))
        if ts: return Node("TypeSwitchStmt", p, init=init, assign=tag, body=body)
        return Node("SwitchStmt", p, init=init, tag=tag.x if tag else None, body=body)

# ------------------------------------------------------------------ types
class T: pass
class Basic(T):
    def __init__(s, name, kind, alias=False): s.name, s.kind, s.alias = name, kind, alias
class Named(T):
    def __init__(s, obj, targs=(), origin=None): s.obj, s.targs, s.origin, s.tparams, s.under, s.methods = obj, list(targs), origin, [], None, []
class Alias(T):
    def __init__(s, obj, rhs=None, targs=(), origin=None): s.obj, s.rhs, s.targs, s.origin, s.tparams = obj, rhs, list(targs), origin, []
class Pointer(T):
    def __init__(s, t): s.t = t
class Slice(T):
    def __init__(s, t): s.t = t
class Array(T):
    def __init__(s, n, t): s.n, s.t = n, t
class Map(T):
    def __init__(s, k, v): s.k, s.v = k, v
class Chan(T):
    def __init__(s, d, t): s.d, s.t = d, t
class Tuple(T):
    def __init__(s, ts): s.ts = ts
class Sig(T):
    def __init__(s, params, results, variadic, tparams=(), recv=None): s.params, s.results, s.variadic, s.tparams, s.recv = params, results, variadic, list(tparams), recv
class Struct(T):
    def __init__(s, fields, tags): s.fields, s.tags = fields, tags
class Interface(T):
    def __init__(s, methods, embeds, implicit=False, special=None): s.methods, s.embeds, s.implicit, s.special = methods, embeds, implicit, special
class TypeParam(T):
    def __init__(s, obj, index): s.obj, s.index, s.bound = obj, index, None
class Union(T):
    def __init__(s, terms): s.terms = terms

class Obj:
    count = 0
    def __init__(s, kind, name, pkg, pos, typ=None, **kw):
        Obj.count += 1
        s.id = Obj.count; s.kind, s.name, s.pkg, s.pos, s.typ = kind, name, pkg, pos, typ
        s.field = s.embedded = False; s.origin = None; s.val = None; s.path = None; s.node = None; s.top = False
        s.__dict__.update(kw)
    def __repr__(s): return f"<{s.kind} {s.name}#{s.id}>"

class Pkg:
    def __init__(s, path, name): s.path, s.name, s.scope, s.files, s.imports = path, name, {}, [], {}

class Scope:
    def __init__(s, up=None): s.up, s.d = up, {}
    def find(s, n):
        while s is not None:
            if n in s.d: return s.d[n]
            s = s.up

UNIVERSE = Scope()
def _b(n, k, al=False): t = Basic(n, k, al); UNIVERSE.d[n] = Obj("type", n, None, 0, t); return t
for n, k in [("bool", "BBool"), ("int", "BInt"), ("int8", "BInt8"), ("int16", "BInt16"), ("int32", "BInt32"), ("int64", "BInt64"), ("uint", "BUint"),
             ("uint8", "BUint8"), ("uint16", "BUint16"), ("uint32", "BUint32"), ("uint64", "BUint64"), ("uintptr", "BUintptr"), ("float32", "BFloat32"),
             ("float64", "BFloat64"), ("complex64", "BComplex64"), ("complex128", "BComplex128"), ("string", "BString")]: _b(n, k)
_b("byte", "BUint8", True); _b("rune", "BInt32", True)
U = {n: Basic("untyped " + n, k) for n, k in [("bool", "BUntypedBool"), ("int", "BUntypedInt"), ("rune", "BUntypedRune"), ("float", "BUntypedFloat"), ("string", "BUntypedString"), ("nil", "BUntypedNil")]}
INVALID = Basic("invalid type", "BInvalid")
def basic(n): return UNIVERSE.d[n].typ
ANY_I = Interface([], [], special="any")
_any = Obj("type", "any", None, 0); _any.typ = Alias(_any, ANY_I); UNIVERSE.d["any"] = _any
_err = Obj("type", "error", None, 0); ERROR = Named(_err); _err.typ = ERROR
_errm = Obj("func", "Error", None, 0); _errm.typ = Sig([], [Obj("var", "", None, 0, basic("string"))], False, recv=ERROR)
ERROR.under = Interface([_errm], []); UNIVERSE.d["error"] = _err
_cmp = Obj("type", "comparable", None, 0); COMPARABLE = Named(_cmp); _cmp.typ = COMPARABLE
COMPARABLE.under = Interface([], [], special="comparable"); UNIVERSE.d["comparable"] = _cmp
for n in ("true", "false"): UNIVERSE.d[n] = Obj("const", n, None, 0, U["bool"], val=n)
UNIVERSE.d["iota"] = Obj("const", "iota", None, 0, U["int"])
UNIVERSE.d["nil"] = Obj("nil", "nil", None, 0, U["nil"])
for n in "append cap clear close complex copy delete imag len make max min new panic print println real recover".split():
    UNIVERSE.d[n] = Obj("builtin", n, None, 0, INVALID)

def unalias(t):
    while isinstance(t, Alias): t = t.rhs
    return t
def under(t):
    t = unalias(t)
    if isinstance(t, Named):
        if t.origin is not None: return subst(under(t.origin), dict(zip([p.obj.id for p in t.origin.tparams], t.targs)))
        return under(t.under) if isinstance(t.under, (Named, Alias)) else t.under
    if isinstance(t, TypeParam): return under(t.bound)
    return t
def subst(t, m):
    if isinstance(t, TypeParam): return m.get(t.obj.id, t)
    if isinstance(t, Basic) or t is None: return t
    if isinstance(t, Named): return Named(t.obj, [subst(a, m) for a in t.targs], t.origin) if t.targs else t
    if isinstance(t, Alias):
        if not t.targs: return t
        return inst_alias(t.origin, [subst(a, m) for a in t.targs])
    if isinstance(t, Pointer): return Pointer(subst(t.t, m))
    if isinstance(t, Slice): return Slice(subst(t.t, m))
    if isinstance(t, Array): return Array(t.n, subst(t.t, m))
    if isinstance(t, Map): return Map(subst(t.k, m), subst(t.v, m))
    if isinstance(t, Chan): return Chan(t.d, subst(t.t, m))
    if isinstance(t, Tuple): return Tuple([subst(x, m) for x in t.ts])
    def so(o):
        n = subst(o.typ, m)
        if n is o.typ or same(n, o.typ): return o
        r = Obj(o.kind, o.name, o.pkg, o.pos, n, field=o.field, embedded=o.embedded); r.origin = o.origin or o
        return r
    if isinstance(t, Sig): return Sig([so(p) for p in t.params], [so(p) for p in t.results], t.variadic, t.tparams, subst(t.recv, m))
    if isinstance(t, Struct): return Struct([so(f) for f in t.fields], t.tags)
    if isinstance(t, Interface): return Interface([so(f) for f in t.methods], [subst(e, m) for e in t.embeds], t.implicit, t.special)
    if isinstance(t, Union): return Union([(x, subst(y, m)) for x, y in t.terms])
    raise TypeError(t)
def inst_alias(al, targs):
    return Alias(al.obj, subst(al.rhs, dict(zip([p.obj.id for p in al.tparams], targs))), targs, al)
def same(a, b):
    a, b = unalias(a), unalias(b)
    if a is b: return True
    if type(a) is not type(b): return False
    if isinstance(a, Basic): return a.kind == b.kind
    if isinstance(a, Named): return a.obj is b.obj and len(a.targs) == len(b.targs) and all(map(same, a.targs, b.targs))
    if isinstance(a, TypeParam): return a.obj is b.obj
    if isinstance(a, (Pointer, Slice)): return same(a.t, b.t)
    if isinstance(a, Array): return a.n == b.n and same(a.t, b.t)
    if isinstance(a, Map): return same(a.k, b.k) and same(a.v, b.v)
    if isinstance(a, Chan): return a.d == b.d and same(a.t, b.t)
    if isinstance(a, Sig): return len(a.params) == len(b.params) and len(a.results) == len(b.results) and a.variadic == b.variadic and all(same(x.typ, y.typ) for x, y in zip(a.params + a.results, b.params + b.results))
    if isinstance(a, Struct): return len(a.fields) == len(b.fields) and all(x.name == y.name and same(x.typ, y.typ) for x, y in zip(a.fields, b.fields))
    if isinstance(a, Interface): return len(a.methods) == len(b.methods) and all(x.name == y.name and same(x.typ, y.typ) for x, y in zip(a.methods, b.methods)) and len(a.embeds) == len(b.embeds)
    return False

def type_methods(t):
    """declared methods of a named type (instances: substituted copies with origin)"""
    if t.origin is None: return t.methods
    out = []
    for f in t.origin.methods:
        rp = f.rtparams
        out.append(method_inst(f, t, dict(zip([p.obj.id for p in rp], t.targs))))
    return out
def method_inst(f, t, m):
    r = Obj("func", f.name, f.pkg, f.pos, subst(f.typ, m)); r.origin = f; return r
def iface_methods(t):
    """all methods of an interface type, embedded ones included"""
    out = {f.name: f for f in t.methods}
    for e in t.embeds:
        u = under(e)
        if isinstance(u, Interface):
            for f in iface_methods(u): out.setdefault(f.name, f)
    return sorted(out.values(), key=lambda f: method_id(f))
def method_id(o): return o.name if o.name[:1].isupper() else ((o.pkg.path if o.pkg else "_") + "." + o.name)

def lookup(t, name):
    """field or method, breadth first"""
    t = unalias(t)
    if isinstance(t, Pointer): t = unalias(t.t)
    level = [t]; seen = set()
    while level:
        nxt = []
        for t in level:
            if isinstance(t, Named):
                if id(t.obj) in seen and not t.targs: continue
                seen.add(id(t.obj))
                for f in type_methods(t):
                    if f.name == name: return f
            u = under(t)
            if isinstance(u, Struct):
                for f in u.fields:
                    if f.name == name: return f
                for f in u.fields:
                    if f.embedded:
                        e = unalias(f.typ); nxt.append(unalias(e.t) if isinstance(e, Pointer) else e)
            elif isinstance(u, Interface):
                for f in iface_methods(u):
                    if f.name == name: return f
        level = nxt
    return None

def method_set(t):
    """method objects of type t by Id: (promoted through embedding; collisions as in go/types)"""
    ptr = False; t = unalias(t)
    if isinstance(t, Pointer): ptr, t = True, unalias(t.t)
    result, level, seen = {}, [(t, ptr)], set()
    blocked = set()
    while level:
        found, fields, nxt = {}, set(), []
        for t, ptr in level:
            if isinstance(t, Named):
                if t.obj.id in seen: continue
                seen.add(t.obj.id)
                for f in type_methods(t):
                    pr = isinstance(unalias((f.origin or f).typ.recv), Pointer)
                    found.setdefault(f.name, []).append(f if (ptr or not pr) else None)
            u = under(t)
            if isinstance(u, Struct):
                for f in u.fields:
                    fields.add(f.name)
                    if f.embedded:
                        e = unalias(f.typ)
                        nxt.append((unalias(e.t), True) if isinstance(e, Pointer) else (e, ptr))
            elif isinstance(u, Interface) and not isinstance(t, TypeParam):
                for f in iface_methods(u): found.setdefault(f.name, []).append(f)
        for n, l in found.items():
            if n in blocked or n in result: continue
            if len(l) == 1 and n not in fields and l[0] is not None: result[n] = l[0]
        blocked |= set(found) | fields
        level = nxt
    return sorted(result.values(), key=method_id)

# ------------------------------------------------------------------ checker
class Checker:
    def __init__(s, pkg, resolve):
        s.pkg, s.resolve = pkg, resolve
        s.defs, s.uses, s.pkgname, s.cases, s.types = {}, {}, {}, [], {}
        s.scope = Scope(UNIVERSE); s.later = []
        s.order = []
    def defn(s, ident, obj):
        s.defs[ident] = obj
    def use(s, ident, obj): s.uses[ident] = obj
    def check(s, files):
        s.files = files; s.fscope = {}
        inits = []
        for f in files:
            fs = s.fscope[f] = Scope(s.scope)
            for d in f.decls:
                if d.kind == "GenDecl" and d.tok == "import":
                    for sp in d.specs:
                        imp = s.resolve(sp.path)
                        nm = sp.name.name if sp.name else imp.name
                        o = Obj("pkgname", nm, s.pkg, sp.name.pos if sp.name else sp.path_pos, INVALID, imported=imp, path=imp.path)
                        s.pkg.imports[sp.path] = imp
                        if sp.name: s.defn(sp.name, o)
                        s.pkgname[sp] = o
                        if nm == ".":
                            for n, x in imp.scope.items():
                                if n[:1].isupper(): fs.d[n] = x
                        elif nm != "_": fs.d[nm] = o
                elif d.kind == "GenDecl":
                    for sp in d.specs:
                        if d.tok == "type": s.declare(Obj("type", sp.name.name, s.pkg, sp.name.pos, node=sp, file=fs), sp.name)
                        else:
                            for j, n in enumerate(sp.names):
                                s.declare(Obj(d.tok, n.name, s.pkg, n.pos, node=sp, index=j, file=fs), n)
                elif d.kind == "FuncDecl":
                    o = Obj("func", d.name.name, s.pkg, d.name.pos, node=d, file=fs)
                    if d.recv is None and d.name.name not in ("init", "_"): s.declare(o, d.name)
                    else: s.defn(d.name, o); s.order.append(o)
        for o in s.order:  # methods first get attached
            if o.kind == "func" and o.node.recv is not None:
                t = o.node.recv.fields[0].typ
                while t.kind in ("StarExpr", "ParenExpr", "IndexExpr", "IndexListExpr"): t = t.x
                b = s.scope.d.get(t.name)
                if b is not None and b.kind == "type":
                    b.__dict__.setdefault("pend", []).append(o)
        for o in list(s.order): s.resolve_obj(o)
        while s.later: s.later.pop(0)()
        for o in s.pkg.scope.values(): o.top = True
    def declare(s, o, ident):
        s.defn(ident, o); s.order.append(o)
        if o.name != "_" and o.name not in s.scope.d: s.scope.d[o.name] = o; s.pkg.scope[o.name] = o
    def resolve_obj(s, o):
        if o.kind == "func":
            if o.typ is None: s.funcobj(o)
            return
        if o.typ is not None or o.pkg is not s.pkg: return
        n = o.node
        if o.kind == "type": s.typedecl(o, n, o.file)
        else: s.valuedecl(n, o.file, o.kind, {i: s.defs[i] for i in n.names})
    def typedecl(s, o, sp, sc):
        if sp.alias:
            al = Alias(o); o.typ = al; sc2 = Scope(sc)
            al.tparams = s.tparams(sp.tparams, sc2); al.rhs = s.type(sp.typ, sc2)
        else:
            nt = Named(o); o.typ = nt; sc2 = Scope(sc)
            nt.tparams = s.tparams(sp.tparams, sc2); t = s.type(sp.typ, sc2, owner=nt)
            nt.under = t
            for m in o.__dict__.get("pend", []): nt.methods.append(m)
            for m in o.__dict__.get("pend", []):
                s.later.insert(0, lambda m=m: s.funcobj(m) if m.typ is None else None)
    def tparams(s, fl, sc):
        out = []
        for f in fl.fields:
            for n in f.names:
                o = Obj("type", n.name, s.pkg, n.pos); o.typ = TypeParam(o, len(out)); out.append(o.typ)
                s.defn(n, o); sc.d[n.name] = o; o.field_node = f
        i = 0
        for f in fl.fields:
            b = s.type(f.typ, sc)
            if not isinstance(under(b), Interface) or isinstance(b, (Union,)): b = Interface([], [b], implicit=True)
            elif f.typ.kind == "UnaryExpr": b = Interface([], [b], implicit=True)
            for n in f.names: out[i].bound = b; i += 1
        return out
    def funcobj(s, o):
        d, sc = o.node, Scope(o.file)
        recv, o.rtparams = None, []
        if d.recv is not None:
            f = d.recv.fields[0]; t = f.typ; ptr = False
            if t.kind == "StarExpr": ptr, t = True, t.x
            if t.kind in ("IndexExpr", "IndexListExpr"):
                b = s.expr_obj(t.x, sc); args = [t.index] if t.kind == "IndexExpr" else t.indices; s.resolve_obj(b)
                for j, a in enumerate(args):
                    to = Obj("type", a.name, s.pkg, a.pos); to.typ = TypeParam(to, j); to.typ.bound = b.typ.tparams[j].bound
                    s.defn(a, to); sc.d[a.name] = to; o.rtparams.append(to.typ)
                recv = Named(b, o.rtparams, b.typ)
            else: recv = s.type(t, sc)
            if ptr: recv = Pointer(recv)
        tps = s.tparams(d.typ.tparams, sc)
        sig = s.sig(d.typ, sc); sig.tparams = tps; sig.recv = recv
        if d.recv is not None:
            for n in d.recv.fields[0].names:
                v = Obj("var", n.name, s.pkg, n.pos, recv); s.defn(n, v)
                if n.name != "_": sc.d[n.name] = v
        o.typ = sig
        if d.body is not None: s.later.append(lambda: s.body(d.body, sc, sig))
    def body(s, b, sc, sig):
        for st in b.stmts: s.stmt(st, sc)
    def sig(s, ft, sc, ):
        ps, rs, var = [], [], False
        for fl, out in ((ft.params, ps), (ft.results, rs)):
            for f in fl.fields:
                if f.typ.kind == "Ellipsis": t = Slice(s.type(f.typ.elt, sc)); var = True
                else: t = s.type(f.typ, sc)
                for n in f.names:
                    v = Obj("var", n.name, s.pkg, n.pos, t); s.defn(n, v); out.append(v)
                    if n.name != "_": sc.d[n.name] = v
                if not f.names: out.append(Obj("var", "", s.pkg, f.typ.pos, t))
        return Sig(ps, rs, var)
    # ---------------- types
    def expr_obj(s, n, sc):
        if n.kind == "Ident":
            o = sc.find(n.name)
            if o is None: return None
            s.use(n, o); return o
        if n.kind == "SelectorExpr" and n.x.kind == "Ident":
            p = sc.find(n.x.name)
            if p is not None and p.kind == "pkgname":
                s.use(n.x, p); o = p.imported.scope.get(n.sel.name)
                if o is not None: s.use(n.sel, o)
                return o
        return None
    def type(s, n, sc, owner=None):
        t = s.type1(n, sc, owner); s.types[n] = t; return t
    def type1(s, n, sc, owner):
        k = n.kind
        if k in ("Ident", "SelectorExpr"):
            o = s.expr_obj(n, sc)
            if o is None or o.kind != "type": return INVALID
            s.resolve_obj(o); return o.typ
        if k in ("IndexExpr", "IndexListExpr"):
            o = s.expr_obj(n.x, sc); args = [n.index] if k == "IndexExpr" else n.indices
            ts = [s.type(a, sc) for a in args]
            s.resolve_obj(o)
            return inst_alias(o.typ, ts) if isinstance(o.typ, Alias) else Named(o, ts, o.typ)
        if k == "StarExpr": return Pointer(s.type(n.x, sc))
        if k == "ParenExpr": return s.type(n.x, sc)
        if k == "ArrayType":
            if n.len is None: return Slice(s.type(n.elt, sc))
            t, v = s.expr(n.len, sc); return Array(int(v), s.type(n.elt, sc))
        if k == "MapType": a = s.type(n.key, sc); return Map(a, s.type(n.value, sc))
        if k == "ChanType": return Chan(n.dir, s.type(n.value, sc))
        if k == "FuncType": return s.sig(n, Scope(sc))
        if k == "StructType":
            fs, tags = [], []
            for f in n.fields.fields:
                t = s.type(f.typ, sc); tag = ""
                if f.tag: tag = f.tag[1:-1] if f.tag[0] == "`" else unquote(f.tag)
                for i in f.names:
                    v = Obj("var", i.name, s.pkg, i.pos, t, field=True); s.defn(i, v); fs.append(v); tags.append(tag)
                if not f.names:
                    x = f.typ
                    while x.kind in ("StarExpr", "IndexExpr", "IndexListExpr"): x = x.x
                    i = x.sel if x.kind == "SelectorExpr" else x
                    v = Obj("var", i.name, s.pkg, i.pos, t, field=True, embedded=True); s.defn(i, v); fs.append(v); tags.append(tag)
            return Struct(fs, tags)
        if k == "InterfaceType":
            it = Interface([], [])
            for f in n.methods.fields:
                if f.names:
                    i = f.names[0]; o = Obj("func", i.name, s.pkg, i.pos, node=None); o.rtparams = []
                    s.defn(i, o); o.typ = s.sig(f.typ, Scope(sc)); o.typ.recv = owner if owner is not None else it; it.methods.append(o)
                else: it.embeds.append(s.type(f.typ, sc))
            return it
        if k == "UnaryExpr": return Union([(True, s.type(n.x, sc))])
        if k == "BinaryExpr":
            terms = []
            for x in (n.x, n.y):
                t = s.type(x, sc); terms += t.terms if isinstance(t, Union) else [(False, t)]
            return Union(terms)
        raise TypeError(k)
    # ---------------- expressions: (type, constant value or None)
    def is_type(s, n, sc):
        k = n.kind
        if k == "Ident": o = sc.find(n.name); return o is not None and o.kind == "type"
        if k == "SelectorExpr" and n.x.kind == "Ident":
            p = sc.find(n.x.name)
            if p is not None and p.kind == "pkgname": o = p.imported.scope.get(n.sel.name); return o is not None and o.kind == "type"
            return False
        if k in ("StarExpr", "ParenExpr"): return s.is_type(n.x, sc)
        if k in ("IndexExpr", "IndexListExpr"): return s.is_type(n.x, sc)
        return k in ("ArrayType", "MapType", "ChanType", "FuncType", "StructType", "InterfaceType")
    def expr(s, n, sc, hint=None):
        r = s.expr1(n, sc, hint); return r
    def expr1(s, n, sc, hint):
        k = n.kind
        if k == "BasicLit":
            if n.lk == "int": return U["int"], int(n.lit, 0)
            if n.lk == "float": return U["float"], float(n.lit)
            if n.lk == "string": return U["string"], ("s", n.lit[1:-1] if n.lit[0] == "`" else unquote(n.lit))
            return U["rune"], 0
        if k == "Ident" or (k == "SelectorExpr" and n.x.kind == "Ident" and getattr(sc.find(n.x.name), "kind", None) == "pkgname"):
            o = s.expr_obj(n, sc)
            if o is None: return INVALID, None
            s.resolve_obj(o)
            return (o.typ or INVALID), o.val
        if k == "SelectorExpr":
            t, _ = s.expr(n.x, sc)
            o = lookup(t, n.sel.name)
            if o is None: return INVALID, None
            s.use(n.sel, o)
            if o.typ is None: s.funcobj(o)
            return o.typ, None
        if k == "ParenExpr":
            if s.is_type(n, sc): return s.type(n, sc), None
            return s.expr(n.x, sc)
        if k == "StarExpr":
            t, _ = s.expr(n.x, sc); u = under(t)
            return (u.t, None) if isinstance(u, Pointer) else (INVALID, None)
        if k == "UnaryExpr":
            t, v = s.expr(n.x, sc, unptr(hint) if n.op == "&" else None)
            if n.op == "&": return Pointer(t), None
            if n.op == "<-": return under(t).t, None
            if n.op == "-" and v is not None: return t, -v
            return t, None
        if k == "BinaryExpr":
            (t, v), (r, w) = s.expr(n.x, sc), s.expr(n.y, sc)
            if n.op in ("==", "!=", "<", ">", "<=", ">=", "&&", "||"): return U["bool"], None
            val = None
            if isinstance(v, int) and isinstance(w, int): val = {"+": v + w, "-": v - w, "*": v * w}.get(n.op)
            if isinstance(t, Basic) and t.name.startswith("untyped") : t = r
            if r is INVALID: t = INVALID
            return t, val
        if k in ("IndexExpr", "IndexListExpr"):
            if s.is_type(n.x, sc): return s.type(n, sc), None
            t, _ = s.expr(n.x, sc)
            s.expr(n.index, sc); u = under(t)
            if isinstance(u, Map): return u.v, None
            if isinstance(u, (Slice, Array)): return u.t, None
            return basic("byte"), None
        if k == "FuncLit":
            sc2 = Scope(sc); sig = s.sig(n.typ, sc2); s.types[n.typ] = sig
            s.later.append(lambda: s.body(n.body, sc2, sig)) if False else s.body(n.body, sc2, sig)
            return sig, None
        if k == "CompositeLit":
            t = s.type(n.typ, sc) if n.typ is not None else hint
            u = under(t)
            if n.typ is None and isinstance(u, Pointer): u = under(u.t)
            for e in n.elts:
                if e.kind == "KeyValueExpr":
                    if isinstance(u, Struct):
                        f = next((f for f in u.fields if f.name == e.key.name), None)
                        if f is not None: s.use(e.key, f)
                        s.expr(e.value, sc, f.typ if f else None)
                    else:
                        s.expr(e.key, sc, u.k if isinstance(u, Map) else None); s.expr(e.value, sc, u.v if isinstance(u, Map) else u.t)
                else: s.expr(e, sc, u.t if isinstance(u, (Slice, Array)) else None)
            return t, None
        if k == "TypeAssertExpr": s.expr(n.x, sc); return s.type(n.typ, sc), None
        if k == "CallExpr":
            if s.is_type(n.fun, sc):
                t = s.type(n.fun, sc); v = None
                for a in n.args: v = s.expr(a, sc, t)[1]
                return t, v if isinstance(under(t), Basic) else None
            if n.fun.kind == "Ident" and getattr(sc.find(n.fun.name), "kind", None) == "builtin":
                name = n.fun.name; s.use(n.fun, sc.find(name)); rt = INVALID
                for j, a in enumerate(n.args):
                    if name in ("make", "new") and j == 0: rt = s.type(a, sc)
                    else: t, _ = s.expr(a, sc); rt = t if name == "append" and j == 0 else rt
                if name in ("len", "cap"): rt = basic("int")
                if name == "new": rt = Pointer(rt)
                return rt, None
            t, _ = s.expr(n.fun, sc); u = under(t)
            ats = [s.expr(a, sc)[0] for a in n.args]
            if not isinstance(u, Sig): return INVALID, None
            if u.tparams:
                m = {}
                for p, a in zip(u.params, ats): infer(p.typ, a, m)
                u = subst(u, m)
            if len(u.results) == 1: return u.results[0].typ, None
            return Tuple([r.typ for r in u.results]), None
        if s.is_type(n, sc): return s.type(n, sc), None
        raise TypeError(k)
    # ---------------- declarations and statements
    def valuedecl(s, sp, sc, tok, objs):
        t = s.type(sp.typ, sc) if sp.typ is not None else None
        for o in objs.values(): o.typ = t
        vals = [s.expr(v, sc, t) for v in sp.values]
        if len(vals) == 1 and isinstance(vals[0][0], Tuple): vals = [(x, None) for x in vals[0][0].ts]
        for j, n in enumerate(sp.names):
            o = objs[n]
            if j < len(vals):
                if t is None: o.typ = vals[j][0] if tok == "const" else default_type(vals[j][0])
                if tok == "const": o.val = vals[j][1]
            elif t is None: o.typ = INVALID
    def local(s, n, t, sc):
        o = Obj("var", n.name, s.pkg, n.pos, t); s.defn(n, o)
        if n.name != "_": sc.d[n.name] = o
        return o
    def stmt(s, n, sc):
        k = n.kind
        if k == "DeclStmt":
            for sp in n.decl.specs:
                if n.decl.tok == "type":
                    o = Obj("type", sp.name.name, s.pkg, sp.name.pos); s.defn(sp.name, o); sc.d[sp.name.name] = o; s.typedecl(o, sp, sc)
                else:
                    objs = {i: Obj(n.decl.tok, i.name, s.pkg, i.pos) for i in sp.names}
                    s.valuedecl(sp, sc, n.decl.tok, objs)
                    for i, o in objs.items():
                        s.defn(i, o)
                        if i.name != "_": sc.d[i.name] = o
        elif k == "BlockStmt":
            sc2 = Scope(sc)
            for x in n.stmts: s.stmt(x, sc2)
        elif k == "ReturnStmt":
            for x in n.results: s.expr(x, sc)
        elif k == "ExprStmt": s.expr(n.x, sc)
        elif k == "GoStmt": s.expr(n.call, sc)
        elif k == "IncDecStmt": s.expr(n.x, sc)
        elif k == "SendStmt": s.expr(n.chan, sc); s.expr(n.value, sc)
        elif k == "AssignStmt":
            if n.op == ":=":
                ts = [s.expr(x, sc)[0] for x in n.rhs]
                if len(ts) == 1 and isinstance(ts[0], Tuple): ts = ts[0].ts
                for l, t in zip(n.lhs, ts):
                    if l.name in sc.d and l.name != "_": s.use(l, sc.d[l.name])
                    else: s.local(l, default_type(t), sc)
            else:
                for x in n.lhs:
                    if not (x.kind == "Ident" and x.name == "_"): s.expr(x, sc)
                for x in n.rhs: s.expr(x, sc)
        elif k == "IfStmt":
            sc2 = Scope(sc)
            if n.init: s.stmt(n.init, sc2)
            s.expr(n.cond, sc2); s.stmt(n.body, sc2)
            if n.els: s.stmt(n.els, sc2)
        elif k == "ForStmt":
            sc2 = Scope(sc)
            if n.init: s.stmt(n.init, sc2)
            if n.cond: s.expr(n.cond, sc2)
            if n.post: s.stmt(n.post, sc2)
            s.stmt(n.body, sc2)
        elif k == "RangeStmt":
            sc2 = Scope(sc); t, _ = s.expr(n.x, sc); u = under(t)
            if isinstance(u, (Slice, Array)): kt, vt = basic("int"), u.t
            elif isinstance(u, Map): kt, vt = u.k, u.v
            elif isinstance(u, Chan): kt, vt = u.t, None
            elif isinstance(u, Sig): y = under(u.params[0].typ); kt, vt = ([p.typ for p in y.params] + [None, None])[:2]
            else: kt, vt = basic("int"), basic("rune")
            for x, t in ((n.key, kt), (n.value, vt)):
                if x is None: continue
                if n.define: s.local(x, t, sc2)
                elif not (x.kind == "Ident" and x.name == "_"): s.expr(x, sc)
            s.stmt(n.body, sc2)
        elif k == "SwitchStmt":
            sc2 = Scope(sc)
            if n.init: s.stmt(n.init, sc2)
            if n.tag: s.expr(n.tag, sc2)
            for c in n.body.stmts:
                for x in c.list or []: s.expr(x, sc2)
                sc3 = Scope(sc2)
                for x in c.body: s.stmt(x, sc3)
        elif k == "TypeSwitchStmt":
            sc2 = Scope(sc)
            if n.init: s.stmt(n.init, sc2)
            lhs = None
            if n.assign.kind == "AssignStmt": lhs = n.assign.lhs[0]; x = n.assign.rhs[0]; s.defn(lhs, None)
            else: x = n.assign.x
            xt, _ = s.expr(x.x, sc2)
            for c in n.body.stmts:
                t = None
                for e in c.list or []:
                    if e.kind == "Ident" and e.name == "nil": s.expr(e, sc2); t = U["nil"]
                    else: t = s.type(e, sc2)
                sc3 = Scope(sc2)
                if lhs is not None:
                    o = Obj("var", lhs.name, s.pkg, lhs.pos, t if c.list and len(c.list) == 1 else xt)
                    s.cases.append(o); sc3.d[lhs.name] = o
                for y in c.body: s.stmt(y, sc3)
        else: raise TypeError(k)

def unptr(t): return unalias(t).t if t is not None and isinstance(unalias(t), Pointer) else None
def default_type(t):
    if isinstance(t, Basic) and t.name.startswith("untyped "):
        return {"untyped bool": basic("bool"), "untyped int": basic("int"), "untyped rune": basic("rune"), "untyped float": basic("float64"), "untyped string": basic("string")}.get(t.name, t)
    return t
def infer(p, a, m):
    p0, a0 = unalias(p), unalias(a)
    if isinstance(p0, TypeParam): m.setdefault(p0.obj.id, a); return
    if isinstance(p0, (Slice, Pointer)) and isinstance(under(a0), type(p0)): infer(p0.t, under(a0).t, m)
def unquote(s):
    import ast as pyast
    return pyast.literal_eval(s)
