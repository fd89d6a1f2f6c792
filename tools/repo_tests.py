"""Translates the tests of the repository (bitfields/tests/*.rs) into checks of the
model: repo_tests.py REPO > rocq/theories/RepoTests.v

A test that uses something the translator or the model does not have is skipped
and listed, with the reason, in a comment at the end of the output."""
import re, sys, os

TOK = re.compile(r'''
  (?P<ws>\s+|//[^\n]*|/\*.*?\*/) | (?P<str>b?"(?:[^"\\]|\\.)*") | (?P<char>'(?:[^'\\]|\\.)') |
  (?P<num>0x[0-9A-Fa-f_]+(?:[ui](?:8|16|32|64|128|size))?|0b[01_]+(?:[ui](?:8|16|32|64|128|size))?|0o[0-7_]+(?:[ui](?:8|16|32|64|128|size))?|[0-9][0-9_]*(?:[ui](?:8|16|32|64|128|size))?) |
  (?P<id>r\#[A-Za-z_]\w*|[A-Za-z_]\w*) | (?P<life>'[a-z_]+) |
  (?P<op>::|->|=>|\.\.=|\.\.|==|!=|<=|>=|&&|\|\||<<|>>|[-+*/%&|^!=<>.,;:\#()\[\]{}?@$])
''', re.X | re.S)


class Skip(Exception):
    pass


def lex(text):
    pos, out = 0, []
    while pos < len(text):
        m = TOK.match(text, pos)
        if not m:
            raise Skip("token " + text[pos:pos + 10])
        if m.lastgroup != "ws":
            out.append((m.lastgroup, m.group(), pos))
        pos = m.end()
    return out


def number(t):
    m = re.match(r"(0x[0-9A-Fa-f_]+?|0b[01_]+?|0o[0-7_]+?|[0-9][0-9_]*?)_*([ui](?:8|16|32|64|128|size))?$", t)
    return int(m.group(1).replace("_", ""), 0 if not re.match(r"0\d", m.group(1)) else 10), m.group(2)


ITY = {"u8": "U8", "u16": "U16", "u32": "U32", "u64": "U64", "u128": "U128", "i8": "I8", "i16": "I16", "i32": "I32",
       "i64": "I64", "i128": "I128", "bool": "TBool"}


def bits(t):
    return 64 if t.endswith("size") else int(t[1:])


def wrap(t, z):
    n = bits(t)
    z %= 1 << n
    return z - (1 << n) if t[0] == "i" and z >> (n - 1) else z


def zz(n):
    return f"({n})" if n < 0 else str(n)


def q(s):
    return '"' + s + '"'


def lst(l):
    return "[" + "; ".join(l) + "]"


class P:
    """Cursor over tokens."""

    def __init__(self, toks):
        self.t, self.i = toks, 0

    def peek(self, k=0):
        return self.t[self.i + k][1] if self.i + k < len(self.t) else None

    def kind(self, k=0):
        return self.t[self.i + k][0] if self.i + k < len(self.t) else None

    def next(self):
        self.i += 1
        return self.t[self.i - 1][1]

    def eat(self, s):
        if self.peek() == s:
            self.i += 1
            return True
        return False

    def need(self, s):
        if not self.eat(s):
            raise Skip(f"expected {s}, found {self.peek()}")

    def group(self):
        """Tokens between matching brackets, starting at an opening one."""
        pairs = {"(": ")", "[": "]", "{": "}"}
        o = self.next()
        depth, start = 1, self.i
        while depth:
            x = self.next()
            if x in pairs:
                depth += 1
            elif x in pairs.values():
                depth -= 1
        return self.t[start:self.i - 1]


def split(toks, sep=","):
    out, cur, depth = [], [], 0
    for t in toks:
        if t[1] in ("(", "[", "{"):
            depth += 1
        elif t[1] in (")", "]", "}"):
            depth -= 1
        if t[1] == sep and depth == 0:
            out.append(cur)
            cur = []
        else:
            cur.append(t)
    if cur:
        out.append(cur)
    return out


def src(toks, text):
    """Text of a token list as proc_macro prints a parsed expression: tokens
    joined the way the declaration writes them."""
    if not toks:
        return ""
    return text[toks[0][2]:toks[-1][2] + len(toks[-1][1])]


def coq_type(toks):
    if len(toks) == 0:
        raise Skip("type")
    if toks[0][1] == "[" and toks[-1][1] == "]":
        inner = split(toks[1:-1], ";")
        if len(inner) != 2:
            raise Skip("type")
        if len(inner[1]) == 1 and inner[1][0][0] == "num":
            n = f"(Parser.LenLit {number(inner[1][0][1])[0]})"
        else:
            n = "Parser.LenOther"
        return f"(Parser.RArray {coq_type(inner[0])} {n})"
    if all(t[0] == "id" or t[1] == "::" for t in toks):
        return f"(Parser.RPath {q(toks[-1][1])})"
    if toks[0][1] == "&" or toks[0][1] == "(":
        return "Parser.ROther"
    raise Skip("type " + " ".join(t[1] for t in toks))


class Custom:
    """A user type with from_bits/into_bits: values are numbers."""

    def __init__(self, name):
        self.name, self.variants, self.newtype, self.kind = name, {}, None, None
        self.from_ty = self.into_ty = None
        self.from_fn = self.into_fn = None
        self.bitflag = None
        self.consts = {}

    def codec(self):
        if self.kind == "bitflag":
            return f"(bitflag_codec {self.bitflag} {ITY[self.from_ty]})"
        if self.from_fn is None or self.into_fn is None:
            raise Skip("custom type without conversions " + self.name)
        return f"(mkCodec {ITY[self.from_ty]} {self.from_fn} {ITY[self.into_ty]} {self.into_fn})"


BASE = 1000000


class Test:
    def __init__(self, name, line, toks, text):
        self.name, self.line, self.text = name, line, text
        self.units, self.order, self.customs, self.consts, self.fns = {}, [], {}, {}, {}
        self.vars, self.out, self.refs = {}, [], {}
        self.raw_units, self.in_array, self.lenient = [], False, False
        p = P(toks)
        stmts = []
        # items first
        while p.i < len(p.t):
            a = self.attrs(p)
            if p.peek() in ("pub", "struct", "enum", "impl", "const", "fn", "use", "mod") and not (p.peek() == "const" and p.peek(1) == "{"):
                self.item(p, a)
            else:
                stmts.append(self.stmt_toks(p))
        for r in self.raw_units:
            self.unit(*r)
        for s in stmts:
            self.stmt(P(s))

    def attrs(self, p):
        out = []
        while p.peek() == "#":
            p.next()
            out.append(p.group())
        return out

    def vis(self, p):
        if p.eat("pub"):
            if p.peek() == "(" and p.peek(1) in ("crate", "super", "in", "self"):
                g = p.group()
                return f'(VisRestricted "({" ".join(t[1] for t in g)})")'
            return "VisPublic"
        return "VisPrivate"

    def item(self, p, attrs):
        v = self.vis(p)
        k = p.next()
        if k == "use":
            while p.next() != ";":
                pass
        elif k == "struct":
            name = p.next()
            bf = [a for a in attrs if a[0][1] == "bitfield"]
            if p.peek() == "(":
                g = p.group()
                p.need(";")
                if bf:
                    raise Skip("tuple struct")
                c = self.customs.setdefault(name, Custom(name))
                c.kind = "newtype"
                f = split(g)
                t = [x[1] for x in f[0] if x[1] != "pub"]
                if len(f) != 1 or len(t) != 1 or t[0] not in ITY:
                    raise Skip("newtype")
                c.newtype = t[0]
            elif p.peek() == "{":
                g = p.group()
                if bf:
                    self.raw_units.append((name, v, bf[0], g))
                    self.order.append(name)
                    self.units[name] = None
                else:
                    self.customs.setdefault(name, Custom(name)).kind = "struct"
            else:
                raise Skip("struct")
        elif k == "enum":
            name = p.next()
            self.enum(name, v, attrs, p.group())
        elif k == "impl":
            head = []
            while p.peek() != "{":
                head.append(p.next())
            g = p.group()
            if len(head) == 1:
                self.impl(head[0], g)
            # trait impls of user types are not needed
        elif k in ("const", "fn"):
            if k == "const" and p.peek() != "fn":
                name = p.next()
                p.need(":")
                ty = []
                while p.peek() != "=":
                    ty.append((p.kind(), p.next(), 0))
                p.need("=")
                e = []
                while p.peek() != ";":
                    e.append(p.t[p.i])
                    p.i += 1
                p.need(";")
                self.consts[name] = (ty, e)
            else:
                if k == "const":
                    p.need("fn")
                name = p.next()
                args = p.group()
                ty = []
                if p.eat("->"):
                    while p.peek() != "{":
                        ty.append(p.t[p.i])
                        p.i += 1
                self.fns[name] = (args, ty, p.group())
        else:
            raise Skip("item " + k)

    def enum(self, name, v, attrs, g):
        c = self.customs.setdefault(name, Custom(name))
        c.kind = "enum"
        flag = [a for a in attrs if a[0][1] == "bitflag"]
        last, rvs = -1, []
        for i, var in enumerate(split(g)):
            p = P(var)
            at = self.attrs(p)
            n = p.next()
            payload = None
            if p.peek() == "(":
                payload = p.group()[-1][1]
            val, txt = last + 1, None
            if p.eat("="):
                rest = p.t[p.i:]
                txt = src(rest, self.text)
                val = self.const_num(rest)
            last = val
            c.variants[n] = (i, val, payload)
            names = [a[0][1] for a in at if a[0][1] in ("base", "default")]
            t = f"(Some {q(txt)})" if txt is not None else "None"
            rvs.append(f"Bitflag.mkRVariant {q(n)} {lst([q(x) for x in names])} {t} Bitflag.FLit {zz(val)}")
        if flag:
            c.kind = "bitflag"
            if flag[0][1:2] and flag[0][1][1] == "(":
                body = P(flag[0][1:]).group()
                parts = split(body)
                ty = parts[0][0][1]
                args = [(x[0][1], x[2][1]) for x in parts[1:]]
                c.from_ty = c.into_ty = ty
                c.bitflag = (f"(Bitflag.mkREnum {v} {q(name)} (Some {coq_type(parts[0])}) "
                             f"{lst([f'({q(a)}, {q(b)})' for a, b in args])} {lst(rvs)})")
            else:
                raise Skip("bitflag attribute")

    def const_num(self, toks):
        e = self.expr(P(toks), full=True)
        z = self.num_of(e)
        if z is None:
            raise Skip("constant " + src(toks, self.text))
        return z

    def num_of(self, e):
        m = re.fullmatch(r"\(TV \(RI \(?(-?\d+)\)?\)\)", e[0])
        return int(m.group(1)) if m else None

    # -- conversions of user types
    def impl(self, name, g):
        c = self.customs.setdefault(name, Custom(name))
        p = P(g)
        while p.i < len(p.t):
            self.attrs(p)
            self.vis(p)
            if p.eat("const"):
                if p.peek() != "fn":
                    n = p.next()
                    p.need(":")
                    while p.next() != "=":
                        pass
                    e = []
                    while p.peek() != ";":
                        e.append(p.t[p.i])
                        p.i += 1
                    p.next()
                    c.consts[n] = e
                    continue
            p.need("fn")
            fn = p.next()
            args = p.group()
            ret = []
            if p.eat("->"):
                while p.peek() != "{":
                    ret.append(p.next())
            body = p.group()
            if fn == "from_bits":
                par = [t[1] for t in args]
                c.from_ty = par[-1]
                if c.from_ty not in ITY:
                    raise Skip("from_bits type")
                c.from_fn = f"(fun {par[0]} => {self.conv(c, P(body), par[0], False)})"
            elif fn == "into_bits":
                c.into_ty = ret[-1]
                if c.into_ty not in ITY:
                    raise Skip("into_bits type")
                c.into_fn = f"(fun self => {self.conv(c, P(body), 'self', True)})"
            else:
                c.consts[fn + "()"] = body

    def conv(self, c, p, x, into):
        if p.eat("match"):
            if into:
                p.need("self")
            else:
                p.need(x)
            arms, default = [], None
            for a in split(p.group()):
                k = [i for i, t in enumerate(a) if t[1] == "=>"][0]
                pat, body = a[:k], a[k + 1:]
                binder = None
                if into:
                    if len(pat) == 3:
                        i, _, payload = c.variants[pat[2][1]]
                        if payload:
                            raise Skip("pattern")
                        cond = f"Z.eqb self {zz(i)}"
                    elif pat[-1][1] == ")":
                        i, _, payload = c.variants[pat[2][1]]
                        binder = pat[4][1]
                        cond = f"Z.leb {BASE * (i + 1)} self"
                        body_s = self.conv(c, P(body), binder, "payload")
                        arms.append((cond, f"(let {binder} := self - {BASE * (i + 1)} in {body_s})"))
                        continue
                    else:
                        raise Skip("pattern")
                    arms.append((cond, self.conv(c, P(body), x, "payload")))
                else:
                    b = self.conv(c, P(body), x, False) if body[0][1] != "unreachable" else "(-1)"
                    if pat[0][1] == "_":
                        default = b
                    elif len(pat) == 1 and pat[0][0] == "num":
                        arms.append((f"Z.eqb {x} {number(pat[0][1])[0]}", b))
                    else:
                        raise Skip("pattern")
            r = default if default is not None else "(-1)"
            for cond, b in reversed(arms):
                r = f"(if {cond} then {b} else {r})"
            return r
        toks = [t[1] for t in p.t[p.i:]]
        s = " ".join(toks)
        if into is True or into == "payload":
            if len(toks) == 1 and p.kind() == "num":
                return zz(number(toks[0])[0])
            if s == "self . 0":
                return "self"
            if s == "! self . 0":
                return f"(cast {ITY[c.into_ty]} (Z.lnot self))"
            if re.fullmatch(r"self \. 0 as \w+", s):
                return f"(cast {ITY[toks[-1]]} self)"
            if s == "self . 0 / 2":
                return "(self / 2)"
            if s == "self as u8" and all(v[2] is None for v in c.variants.values()) and c.variants:
                r = "(-1)"
                for i, val, _ in c.variants.values():
                    r = f"(if Z.eqb self {i} then {val} else {r})"
                return r
            if into == "payload" and len(toks) == 1:
                return toks[0]
            raise Skip("into_bits body " + s)
        if s == f"Self ( {x} )" or s == f"{c.name} ( {x} )":
            return x
        if s == f"Self ( ! {x} )":
            return f"(cast {ITY[c.from_ty]} (Z.lnot {x}))"
        m = re.fullmatch(rf"Self \( {x} as (\w+) \)", s)
        if m:
            return f"(cast {ITY[m.group(1)]} {x})"
        if s == f"Self ( {x} . wrapping_mul ( 2 ) )":
            return f"(cast {ITY[c.from_ty]} (2 * {x}))"
        m = re.fullmatch(r"(?:Self|%s) :: (\w+)" % c.name, s)
        if m:
            return zz(c.variants[m.group(1)][0])
        m = re.fullmatch(r"(?:Self|%s) :: (\w+) \( %s \)" % (c.name, x), s)
        if m:
            return f"({BASE * (c.variants[m.group(1)][0] + 1)} + {x})"
        raise Skip("from_bits body " + s)

    # -- bitfield declarations
    def unit(self, name, v, attr, body):
        if len(attr) < 2 or attr[1][1] != "(":
            raise Skip("attribute")
        parts = split(P(attr[1:]).group())
        ty = coq_type(parts[0])
        args = []
        for a in parts[1:]:
            if len(a) < 3 or a[1][1] != "=":
                raise Skip("argument")
            args.append(f"({q(a[0][1])}, {q(src(a[2:], self.text))})")
        fields, defaults = [], []
        for fd in split(body):
            p = P(fd)
            at = self.attrs(p)
            fv = self.vis(p)
            fn = p.next()
            p.need(":")
            ftoks = p.t[p.i:]
            if any(t[1] == "<" for t in ftoks):
                raise Skip("generic type")
            ignored = False
            attr_s, dflt = "Parser.ANone", None
            for a in at:
                if a[0][1] != "bits":
                    continue
                if len(a) == 1 or a[1][1] != "(":
                    attr_s = "Parser.ANotList"
                    continue
                ps = [x for x in split(P(a[1:]).group()) if x]
                b = "Parser.RNoBits"
                if ps and not (len(ps[0]) > 1 and ps[0][1][1] == "="):
                    if ps[0][0][1] == "-":
                        ps[0], b = ps[0], "Parser.RMinus"
                    elif ps[0][0][0] != "num" or len(ps[0]) > 1:
                        raise Skip("bit count")
                    n, suf = number(ps[0][0][1]) if b != "Parser.RMinus" else (0, "")
                    if b != "Parser.RMinus":
                        b = f"(Parser.RBits {n} {q(suf or '')})"
                    ps = ps[1:]
                kv = []
                for x in ps:
                    kv.append(f"({q(x[0][1])}, {q(src(x[2:], self.text))})")
                    if x[0][1] == "default":
                        dflt = x[2:]
                    if x[0][1] == "ignore":
                        ignored = x[2][1] == "true"
                attr_s = f"(Parser.AList {b} {lst(kv)})"
            tn = ftoks[-1][1]
            codec = "id_codec"
            if not ignored and tn in self.customs:
                codec = self.customs[tn].codec()
            elif not ignored and tn in self.order:
                if self.units[tn] is None:
                    raw = [r for r in self.raw_units if r[0] == tn][0]
                    self.unit(*raw)
                self.nested = getattr(self, "nested", {})
                bt = self.unit_types[tn]
                if bt not in ITY:
                    raise Skip("nested array bitfield")
                codec = f"(nested_codec {self.units[tn]} {ITY[bt]})"
            fields.append(f"Parser.mkRField {q(fn)} {fv} {attr_s} {coq_type(ftoks)} (PInt 0) {codec}")
            if dflt is not None and not ignored:
                try:
                    defaults.append(f"({q(fn)}, {self.default(dflt, fn, tn, ftoks)})")
                except Skip:
                    if not self.lenient:
                        raise
        self.unit_types = getattr(self, "unit_types", {})
        self.unit_types[name] = parts[0][0][1] if len(parts[0]) == 1 else "array"
        self.units[name] = (f"(mkUnit {q(name)} (Parser.mkRDecl true {v} {q(name)} (Some {ty}) {lst(args)}\n     "
                            + "[" + ";\n      ".join(fields) + "]) " + lst(defaults) + ")")

    def default(self, toks, fn, tn, ftoks):
        neg = toks[0][1] == "-"
        body = toks[1:] if neg else toks
        if len(body) == 1 and body[0][0] == "num":
            n, suf = number(body[0][1])
            s = "None" if suf is None else ("(Some TUsize)" if suf == "usize" else f"(Some (TI {ITY[suf]}))")
            e = f"(ELit {n} {s})"
            return f"(EUn UNeg {e})" if neg else e
        if len(toks) == 1 and toks[0][1] in ("true", "false"):
            return f"(EBool {toks[0][1]})"
        if toks[0][1] == "[":
            inner = toks[1:-1]
            semi = split(inner, ";")
            if len(semi) == 2:
                z, suf = number(semi[0][0][1])
                n = number(semi[1][0][1])[0]
                return f"(ERepeat (ELit {z} {'None' if suf is None else f'(Some (TI {ITY[suf]}))'}) {n})"
            vals = [number(x[0][1]) for x in split(inner)]
            suf = vals[0][1] if vals else None
            return f"(EArray {lst([str(v[0]) for v in vals])} {'None' if suf is None else f'(Some {ITY[suf]})'})"
        e = self.expr(P(toks), full=True)
        if tn in self.customs or tn in self.order:
            m = re.fullmatch(r"\(TV (.*)\)", e[0])
            if m and m.group(1).startswith("(RC"):
                return f"(EUser (TUser {q(fn)}) {m.group(1)})"
            raise Skip("custom default " + src(toks, self.text))
        if e[1] in ITY and e[0].startswith("(TV"):
            return f"(EUser (TI {ITY[e[1]]}) {e[0][4:-1]})"
        if isinstance(e[1], tuple) and e[0].startswith("(TV"):
            return f"(EUser (TArr U8 {e[1][1]}) {e[0][4:-1]})"
        raise Skip("default " + src(toks, self.text))

    # -- statements
    def stmt_toks(self, p):
        start, depth = p.i, 0
        while p.i < len(p.t):
            t = p.next()
            if t in ("(", "[", "{"):
                depth += 1
            elif t in (")", "]", "}"):
                depth -= 1
                if depth == 0 and t == "}" and p.t[start][1] in ("for", "if", "match", "{", "unsafe", "while"):
                    return p.t[start:p.i]
            elif t == ";" and depth == 0:
                return p.t[start:p.i - 1]
        return p.t[start:p.i]

    def stmt(self, p):
        if not p.t:
            return
        if p.t[0][1] == "{":
            inner = P(P(p.t).group())
            keep = dict(self.vars)
            while inner.i < len(inner.t):
                self.attrs(inner)
                if inner.peek() in ("struct", "enum", "impl", "fn", "const"):
                    raise Skip("item in block")
                self.stmt(P(self.stmt_toks(inner)))
            self.vars = keep
            return
        if p.eat("let"):
            p.eat("mut")
            x = p.next()
            if p.peek() not in ("=", ":"):
                raise Skip("let pattern")
            ty = None
            if p.eat(":"):
                ty = []
                while p.peek() != "=":
                    ty.append(p.t[p.i])
                    p.i += 1
            p.need("=")
            e = self.expr(p, full=True, want=ty)
            if x != "_":
                self.vars[x] = e[1]
                self.out.append(f"SLetT {q(x)} {e[0]}")
            else:
                self.out.append(f"SDo {e[0]}")
            return
        if p.kind() == "id" and p.peek(1) == "!":
            m = p.next()
            p.next()
            g = split(p.group())
            if m == "assert_eq":
                a, b = self.expr(P(g[0]), full=True), self.expr(P(g[1]), full=True)
                self.out.append(f"SAssert {self.eq(a, b)}")
            elif m == "assert_ne":
                a, b = self.expr(P(g[0]), full=True), self.expr(P(g[1]), full=True)
                self.out.append(f"SAssert (TNot {self.eq(a, b)})")
            elif m == "assert":
                self.out.append(f"SAssert {self.expr(P(g[0]), full=True)[0]}")
            elif m != "println":
                raise Skip("macro " + m)
            return
        if p.peek() in ("for", "if", "while", "match"):
            if p.peek() == "for":
                return self.loop(p)
            raise Skip("statement " + p.peek())
        if p.kind() == "id" and p.peek(1) == "[":
            x = p.next()
            i = self.const_num(p.group())
            p.need("=")
            self.out.append(f"SPut {q(x)} {i} {self.expr(p, full=True)[0]}")
            return
        if p.kind() == "id" and p.peek(1) == "=":
            x = p.next()
            p.next()
            e = self.expr(p, full=True)
            self.out.append(f"SLetT {q(x)} {e[0]}")
            return
        e = self.expr(p, full=True)
        self.out.append(f"SDo {e[0]}")

    def loop(self, p):
        p.next()
        x = p.next()
        p.need("in")
        head = []
        while p.peek() != "{":
            head.append(p.t[p.i])
            p.i += 1
        body = p.group()
        k = [i for i, t in enumerate(head) if t[1] in ("..", "..=")]
        vals = []
        if len(k) == 1:
            a, b = head[:k[0]], head[k[0] + 1:]
            if b and a and a[0][1] == "(" and b[-1][1] == ")":
                raise Skip("for range")
            lo, hi = self.const_num(a), self.const_num(b)
            vals = [[("num", str(i), 0)] for i in range(lo, hi + (head[k[0]][1] == "..="))]
        elif head[0][1] == "[":
            vals = split(P(head).group())
        else:
            raise Skip("for")
        if len(vals) > 300:
            raise Skip("long loop")
        for v in vals:
            keep = dict(self.vars)
            ps = P([u for t in body for u in (v if t[1] == x else [t])])
            while ps.i < len(ps.t):
                self.attrs(ps)
                self.stmt(P(self.stmt_toks(ps)))
            self.vars = keep

    def eq(self, a, b):
        return f"(TEq {a[0]} {b[0]})"

    # -- expressions: (coq, type); types: name of a struct, "builder:Name",
    #    ("arr", n), ("res", t), "u8".., "bool", "str", None
    def expr(self, p, full=False, want=None):
        e = self.binary(p, 0, want)
        if full and p.i < len(p.t):
            raise Skip("expression ends at " + str(p.peek()))
        return e

    OPS = [["||"], ["&&"], ["==", "!="], ["|"], ["^"], ["&"], ["<<", ">>"], ["+", "-"], ["*", "/", "%"]]

    def binary(self, p, lvl, want=None):
        if lvl == len(self.OPS):
            return self.cast(p, want)
        a = self.binary(p, lvl + 1, want)
        while p.peek() in self.OPS[lvl]:
            o = p.next()
            b = self.binary(p, lvl + 1)
            x, y = self.num_of(a), self.num_of(b)
            if o in ("==", "!="):
                r = self.eq(a, b)
                a = (r if o == "==" else f"(TNot {r})", "bool")
                continue
            if x is not None and y is not None:
                z = {"|": lambda: x | y, "^": lambda: x ^ y, "&": lambda: x & y, "<<": lambda: x << y, ">>": lambda: x >> y,
                     "+": lambda: x + y, "-": lambda: x - y, "*": lambda: x * y, "/": lambda: x // y, "%": lambda: x % y}[o]()
                t = a[1] or b[1]
                a = (f"(TV (RI {zz(wrap(t, z) if t in ITY and o == '<<' else z)}))", t)
            else:
                f = {"|": "Z.lor", "^": "Z.lxor", "&": "Z.land", "<<": "Z.shiftl", ">>": "Z.shiftr", "+": "Z.add", "-": "Z.sub",
                     "/": "Z.div", "%": "Z.modulo", "*": "Z.mul"}.get(o)
                if f is None or o in ("<<", "+", "-", "*"):
                    raise Skip("operator " + o)
                a = (f"(TNum {f} {a[0]} {b[0]})", a[1])
        return a

    def cast(self, p, want):
        a = self.unary(p, want)
        while p.peek() == "as":
            p.next()
            t = p.next()
            z = self.num_of(a)
            if z is None:
                if t in ITY and t[0] == "u":
                    a = (f"(TNum Z.modulo {a[0]} (TV (RI (2 ^ {bits(t)}))))", t)
                    continue
                raise Skip("cast")
            if t not in ITY and not t.endswith("size"):
                raise Skip("cast to " + t)
            a = (f"(TV (RI {zz(wrap(t, z))}))", t)
        return a

    def unary(self, p, want):
        if p.eat("-"):
            a = self.unary(p, want)
            z = self.num_of(a)
            if z is None:
                raise Skip("negation")
            return (f"(TV (RI {zz(-z)}))", a[1])
        if p.eat("!"):
            a = self.unary(p, want)
            z = self.num_of(a)
            if z is not None:
                if a[1] not in ITY and not self.in_array:
                    raise Skip("complement of an untyped literal")
                a = (a[0], a[1] or "u8")
                return (f"(TV (RI {zz(wrap(a[1], ~z))}))", a[1])
            if a[1] in ITY and a[1] != "bool":
                raise Skip("complement")
            return (f"(TNot {a[0]})", "bool")
        if p.eat("&"):
            p.eat("mut")
            return self.unary(p, want)
        return self.postfix(p, self.primary(p, want))

    def args(self, p):
        return [self.expr(P(x), full=True) for x in split(p.group())]

    def arr(self, p):
        inner = P(p.t[p.i:]).t
        g = p.group()
        semi = split(g, ";")
        if len(semi) == 2:
            v, n = self.expr(P(semi[0]), full=True), self.const_num(semi[1])
            z = self.num_of(v)
            if z is None:
                raise Skip("array")
            return (f"(TV (RA (repeat {zz(z)} {n}%nat)))", ("arr", n))
        self.in_array = True
        es = [self.expr(P(x), full=True) for x in split(g)]
        self.in_array = False
        ns = [self.num_of(e) for e in es]
        if all(n is not None for n in ns):
            return (f"(TV (RA {lst([zz(n) for n in ns])}))", ("arr", len(ns)))
        return (f"(TList {lst([e[0] for e in es])})", ("arr", len(es)))

    def primary(self, p, want):
        k, t = p.kind(), p.peek()
        if k == "num":
            p.next()
            n, suf = number(t)
            return (f"(TV (RI {n}))", suf)
        if k == "str":
            p.next()
            return (f"(TV (RErr {t}))", "str")
        if t in ("true", "false"):
            p.next()
            return (f"(TV (RB {t}))", "bool")
        if t == "(":
            g = p.group()
            if not g:
                return ("(TV RU)", None)
            return self.expr(P(g), full=True)
        if t == "[":
            return self.arr(p)
        if k != "id":
            raise Skip("expression " + str(t))
        p.next()
        if t == "Ok" and p.peek() == "(":
            (a,) = self.args(p)
            m = re.fullmatch(r"\(TV (.*)\)", a[0])
            if not m:
                raise Skip("Ok")
            return (f"(TV (ROk {m.group(1)}))", ("res", a[1]))
        if t == "Err" and p.peek() == "(":
            (a,) = self.args(p)
            return (a[0], ("res", None))
        if t == "format" and p.peek() == "!":
            p.next()
            g = split(p.group())
            if src(g[0], self.text) == '"{:?}"':
                a = self.expr(P(g[1]), full=True)
                if a[1] in self.units:
                    return (f"(TFmt {q(a[1])} {a[0]})", "str")
            m = re.fullmatch(r'"\{(\w+):\?\}"', src(g[0], self.text))
            if m and self.vars.get(m.group(1)) in self.units:
                b = self.vars[m.group(1)]
                return (f"(TFmt {q(b)} (TVar {q(m.group(1))}))", "str")
            raise Skip("format")
        if p.peek() == "::":
            return self.path(p, t, want)
        if t in self.vars:
            return (f"(TVar {q(t)})", self.vars[t])
        if t in self.consts:
            ty, e = self.consts[t]
            r = self.expr(P(e), full=True)
            tn = ty[0][1] if len(ty) == 1 else None
            return (r[0], tn if tn in ITY else r[1])
        if t in self.customs and p.peek() == "(":
            return self.newtype(t, self.args(p))
        if t in self.fns and p.peek() == "(":
            args, ty, body = self.fns[t]
            if args or p.group():
                raise Skip("function with arguments")
            r = self.expr(P(body), full=True)
            tn = ty[0][1] if len(ty) == 1 else None
            return (r[0], tn if tn in ITY else r[1])
        raise Skip("name " + t)

    def newtype(self, t, a):
        c = self.customs[t]
        if c.kind != "newtype" or len(a) != 1:
            raise Skip("constructor " + t)
        z = self.num_of(a[0])
        if z is None:
            raise Skip("constructor")
        return (f"(TV (RC {zz(z)}))", t)

    def path(self, p, t, want):
        names = [t]
        while p.eat("::"):
            names.append(p.next())
        if names[0] in ("core", "std"):
            raise Skip("::".join(names))
        B, f = names[0], names[-1]
        if len(names) > 2:
            raise Skip("path")
        if B in self.units:
            if p.peek() == "(":
                a = self.args(p)
                if f == "from":
                    return (f"(TFrom {q(B)} {a[0][0]})", B)
                if f == "default":
                    return (f"(TDefault {q(B)})", B)
                t = B
                if f.startswith("checked_from"):
                    t = ("res", B)
                return (f"(TStat {q(B)} {q(f)} {lst([x[0] for x in a])})", t)
            return (f"(TConst {q(B)} {q(f)})", "u32")
        if B.endswith("Builder") and B[:-7] in self.units:
            a = self.args(p)
            if f == "default":
                f = "new"  # builder_feature.rs:64-68
            return (f"(TBuild {q(B[:-7])} {q(f)} {lst([x[0] for x in a])})", "builder:" + B[:-7])
        if B in self.customs:
            c = self.customs[B]
            if f in c.variants:
                i, val, payload = c.variants[f]
                if p.peek() == "(":
                    (a,) = self.args(p)
                    z = self.num_of(a)
                    if z is None:
                        raise Skip("payload")
                    return (f"(TV (RC {BASE * (i + 1) + z}))", B)
                return (f"(TV (RC {i}))", B)
            if f == "from_bits" and p.peek() == "(":
                (a,) = self.args(p)
                return (f"(TCodecFrom {c.codec()} {a[0]})", B)
            if f in c.consts and p.peek() != "(":
                return self.expr(P(c.consts[f]), full=True)
            if f + "()" in c.consts and p.peek() == "(" and not p.group():
                body = c.consts[f + "()"]
                s = " ".join(x[1] for x in body)
                if s.startswith("Self ("):
                    return self.newtype(B, self.args(P(body[1:])))
                m = re.fullmatch(r"Self :: (\w+)", s)
                if m:
                    return (f"(TV (RC {c.variants[m.group(1)][0]}))", B)
            raise Skip("::".join(names))
        if B in ITY:
            if f == "MAX":
                n = bits(B)
                return (f"(TV (RI {(1 << n) - 1 if B[0] == 'u' else (1 << (n - 1)) - 1}))", B)
            if f == "MIN":
                n = bits(B)
                return (f"(TV (RI {zz(0 if B[0] == 'u' else -(1 << (n - 1)))}))", B)
            if f == "from" and p.peek() == "(":
                (a,) = self.args(p)
                if a[1] in self.units:
                    return (f"(TInto {q(a[1])} {a[0]})", B)
                return a
        raise Skip("path " + "::".join(names))

    def postfix(self, p, a):
        while True:
            if p.peek() == "[":
                i = self.const_num(p.group())
                a = (f"(TAt {a[0]} {i})", "u8")
            elif p.peek() == "." and p.kind(1) == "id" and p.peek(2) == "(":
                p.next()
                f = p.next()
                g = split(p.group())
                a = self.method(a, f, g)
            elif p.peek() == "." or p.peek() == "?":
                raise Skip("field access")
            else:
                return a

    def method(self, a, f, g):
        e, t = a
        if isinstance(t, tuple) and t[0] == "res":
            if f in ("unwrap", "expect"):
                return (f"(TUnwrap {e})", t[1])
            if f == "unwrap_err":
                return (f"(TErr {e})", "str")
            if f == "err":
                return (f"(TErr {e})", ("some", "str"))
            if f == "is_ok":
                return (f"(TIsOk {e})", "bool")
            if f == "is_err":
                return (f"(TIsErr {e})", "bool")
            if f == "and_then" and [x[1] for x in g[0]][0::2][:2] == ["|", "|"]:
                x = g[0][1][1]
                keep = dict(self.vars)
                self.vars[x] = t[1]
                k = self.expr(P(g[0][3:]), full=True)
                self.vars = keep
                return (f"(TAndThen {e} {q(x)} {k[0]})", k[1])
            raise Skip("method of Result: " + f)
        if isinstance(t, tuple) and t[0] == "some" and f == "unwrap":
            return (e, t[1])
        if t == "str" and f == "contains":
            return f"(TContains {e} {self.expr(P(g[0]), full=True)[0]})", "bool"
        if f in ("clone", "to_string", "to_owned", "as_slice", "to_vec"):
            return a
        if isinstance(t, str) and t.startswith("builder:"):
            B = t[8:]
            args = [self.expr(P(x), full=True)[0] for x in g]
            r = B if f == "build" else (("res", t) if f.startswith("checked_") else t)
            return (f"(TBuild {q(B)} {q(f)} {lst([e] + args)})", r)
        if t in self.units:
            if t in self.customs and f + "()" in self.customs[t].consts:
                raise Skip("method of the user: " + f)
            if f == "into" and not g:
                return (f"(TInto {q(t)} {e})", None)
            if f in ("into_slice", "checked_into_slice", "into_le_slice", "into_be_slice", "checked_into_le_slice", "checked_into_be_slice"):
                b = g[0]
                if [x[1] for x in b[:2]] != ["&", "mut"] or len(b) != 3:
                    raise Skip("slice argument")
                return (f"(TSlice {q(t)} {e} {q(f)} {q(b[2][1])})", ("res", None) if "checked" in f else None)
            args = [self.expr(P(x), full=True)[0] for x in g]
            r = None
            if f.startswith("checked_"):
                r = ("res", "bool" if f == "checked_get_bit" else None)
            return (f"(TMeth {q(t)} {e} {q(f)} {lst(args)})", r if r else self.ret(t, f))
        if t in self.customs and f == "into_bits":
            return (f"(TCodecInto {self.customs[t].codec()} {e})", self.customs[t].into_ty)
        if f in ("to_le_bytes", "to_be_bytes") and t in ITY and self.num_of(a) is not None:
            z, n = self.num_of(a) % (1 << bits(t)), bits(t) // 8
            l = [z >> (8 * i) & 255 for i in range(n)]
            return (f"(TV (RA {lst([str(x) for x in (l if 'le' in f else l[::-1])])}))", ("arr", n))
        if f == "swap_bytes" and t in ITY and self.num_of(a) is not None:
            n = bits(t) // 8
            return (f"(TV (RI {int.from_bytes((self.num_of(a) % (1 << 8 * n)).to_bytes(n, 'little'), 'big')}))", t)
        raise Skip(f"method {f} of {t}")

    def ret(self, B, f):
        """Type of a method's result, as far as it is needed."""
        raw = [r for r in self.raw_units if r[0] == B][0]
        if f in ("get_bit",):
            return "bool"
        for fd in split(raw[3]):
            k = [i for i, t in enumerate(fd) if t[1] == ":"]
            d = [i for i, t in enumerate(fd) if t[1] == ":" and i + 1 < len(fd)][-1]
            n = fd[d - 1][1]
            if f in (n, n + "_inverted"):
                ty = fd[-1][1]
                return ty if ty in ITY or ty in self.customs or ty in self.units else None
        if f.startswith("into") or f == "get_bits_range":
            return self.unit_types[B] if self.unit_types[B] in ITY else None
        return None

    def coq(self, panic):
        us = lst([self.units[n] for n in self.order])
        want = "is_panic" if panic else "is_passed"
        body = ";\n   ".join(self.out)
        return f"(* {self.line} *)\nExample {self.name} : {want} (run_test\n  {us}\n  [{body}]) = true.\nProof. vm_compute. reflexivity. Qed.\n"


HEADER = '''(** The tests of the repository, run on the model: generated by
    tools/repo_tests.py from /repo/bitfields/tests.  The comment before each
    example is file and line.  These are tests of the transcription, not proofs of
    claims. *)
From Coq Require Import ZArith List Bool String.
From Verif Require Import RustInt Syntax Rust Emit TestRun.
From Verif Require Parser Bitflag ConstExpr.
Import ListNotations.
Open Scope string_scope.
Open Scope list_scope.
Open Scope Z_scope.

Definition id_codec : codec := mkCodec U8 (fun z => z) U8 (fun z => z).
Definition is_ok {E A : Type} (x : ConstExpr.pres E A) : bool := match x with ConstExpr.POk _ => true | _ => false end.
Definition is_passed (r : result) : bool := match r with Passed => true | _ => false end.
Definition is_ill_typed (r : result) : bool := match r with IllTyped _ => true | _ => false end.
Definition is_panic (r : result) : bool := match r with Panicked _ => true | _ => false end.
'''


ERRORS = [
    ("EUnnamed", "Non-named fields"), ("EDuplicate", "Duplicate field name"), ("ENotList", "attribute must be a list"),
    ("ECustomNoBits", "require a defined bit size"), ("EZeroBits", "field bits must be greater than 0"),
    ("ENegativeUnsigned", "Unsigned fields cannot have negative"), ("EDefaultTooSmall", "is below the minimum value"),
    ("EDefaultTooBig", "exceeds the maximum value"), ("ETypeTooSmall", "is too small to hold the specified"),
    ("EMsbOverflow", "exceeds the bit size of the bitfield type"), ("EReservedAccess", "Reserved fields cannot have a defined access"),
    ("ETooManyBits", "is greater than the number of bits of the bitfield"), ("ETooFewBits", "is less than the number of bits of the bitfield"),
    ("EBitsMinus", "Invalid bit count, expected an unsigned integer."), ("EBitsSuffix", "integer without a suffix"),
    ("EBitsTooBig", "is too big, the maximum amount of bits"), ("EUnknownArgument", "Unknown argument"),
    ("EBadAccess", "Invalid field access argument"), ("EBadBool", "Invalid value for boolean argument"), ("EFloat", "Float are not supported"),
    ("EBadOrder", "Invalid order argument"), ("EBadEndian", "Invalid endian argument"),
    ("EBackingType", "The bitfield must have an unsigned integer literal"), ("EBackingType", "The bitfield array"),
    ("EFieldType", "as a field type"), ("EFieldType", "Array fields"), ("EFieldType", "Field array length"), ("EFieldType", "A field can only have")]
FLAGS = [("FType", "The bitflag attribute must have"), ("FManyBases", "There can only be one"), ("FNoBase", "must have at least one variant"),
         ("FNoValue", "must have an explicit value"), ("FArgument EBadEndian", "Invalid endian argument"),
         ("FArgument EUnknownArgument", "Unknown argument"), ("FArgument EBadBool", "Invalid value for boolean"), ("FFloat", "Float are not")]


def error_of(table, msg, line_text):
    if "types are not supported, we cannot guarantee their size" in msg:
        return ["FType"] if table is FLAGS else ["EBackingType" if "bitfield(" in line_text else "EFieldType"]
    return [c for c, m in table if m in msg]


def compile_cases(repo, seen, skipped):
    """The cases of compile_error_cases: for every declaration the parser of the
    model returns the error of the .stderr file, or none."""
    n = k = 0
    base = os.path.join(repo, "bitfields/tests/compile_error_cases")
    for d, _, files in sorted(os.walk(base)):
        for file in sorted(files):
            if not file.endswith(".rs"):
                continue
            path = os.path.join(d, file)
            rel = os.path.relpath(path, base)
            text = open(path).read()
            errs = []
            for m in re.finditer(r"^error(?:\[E\d+\])?: ([^\n]*)\n *--> [^\n:]*:(\d+):", open(path[:-3] + ".stderr").read(), re.M):
                errs.append((int(m.group(2)), m.group(1)))
            name = re.sub(r"\W", "_", rel[:-3])
            try:
                toks = lex(text)
                p = P(toks)
                out, shown = [], 0
                main_body = None
                while p.i < len(p.t):
                    start = text.count("\n", 0, p.t[p.i][2]) + 1
                    first = p.i
                    t = Test.__new__(Test)
                    t.name, t.text, t.in_array = name, text, False
                    t.units, t.order, t.customs, t.consts, t.fns = {}, [], {}, {}, {}
                    t.vars, t.out, t.refs, t.raw_units = {}, [], {}, []
                    a = t.attrs(p)
                    if p.peek() == "fn":
                        p.next(), p.next(), p.group()
                        main_body = p.group()
                        continue
                    if p.peek() == "use":
                        while p.next() != ";":
                            pass
                        continue
                    kind = p.peek(1) if p.peek() == "pub" else p.peek()
                    q0 = p.i
                    p.i = q0
                    bodyless = [x for x in a if x[0][1] in ("bitfield", "bitflag")]
                    # find the end of the item
                    while p.peek() not in ("{", "("):
                        p.next()
                    paren = p.peek() == "("
                    g = p.group()
                    if paren:
                        p.eat(";")
                    end = text.count("\n", 0, p.t[p.i - 1][2]) + 1
                    here = [e for e in errs if start <= e[0] <= end]
                    if not bodyless:
                        continue
                    shown += 1
                    ex = f"{name}_{shown}"
                    while ex in seen:
                        ex += "_"
                    seen.add(ex)
                    line = f"compile_error_cases/{rel}:{start}"
                    try:
                        if kind == "enum":
                            t.enum(p.t[q0 + (2 if p.t[q0][1] == "pub" else 1)][1], "VisPublic", a, g)
                            c = list(t.customs.values())[0]
                            if not here:
                                raise Skip("enum without error")
                            want = error_of(FLAGS, here[0][1], text.split("\n")[here[0][0] - 1])
                            if not want:
                                raise Skip("message " + here[0][1])
                            out.append(f"(* {line} *)\nExample {ex} : Bitflag.parse_bitflag default_features\n  {c.bitflag} = "
                                       f"ConstExpr.PErr ({'Bitflag.' + want[0].replace(' ', ' Parser.')}).\nProof. vm_compute. reflexivity. Qed.\n")
                            continue
                        if kind != "struct":
                            raise Skip("not a struct")
                        sname = p.t[q0 + (2 if p.t[q0][1] == "pub" else 1)][1]
                        if paren:
                            fs = ", ".join(f"x{i}: u8" for i in range(len(split(g))))
                            decl_named, g2 = "false", []
                        else:
                            decl_named, g2 = "true", g
                        t.lenient = True
                        t.unit(sname, "VisPublic", bodyless[0], g2)
                        u = t.units[sname].replace("Parser.mkRDecl true", "Parser.mkRDecl " + decl_named)
                        macro = [e for e in here if error_of(ERRORS, e[1], text.split("\n")[e[0] - 1])]
                        if macro:
                            want = error_of(ERRORS, macro[0][1], text.split("\n")[macro[0][0] - 1])
                            out.append(f"(* {line}: {macro[0][1][:60].replace(chr(34), chr(39))} *)\nExample {ex} : Parser.parse_bitfield Checked default_features (u_decl\n  {u}) = "
                                       f"ConstExpr.PErr Parser.{want[0]}.\nProof. vm_compute. reflexivity. Qed.\n")
                        elif here and here[0][1].startswith("cannot apply unary operator"):
                            out.append(f"(* {line}: {here[0][1]} *)\nExample {ex} : is_ill_typed (run_test [{u}] []) = true.\nProof. vm_compute. reflexivity. Qed.\n")
                        elif here:
                            raise Skip("message " + here[0][1])
                        elif any(error_of(ERRORS, e[1], "") for e in errs):
                            out.append(f"(* {line}: accepted *)\nExample {ex} : is_ok (Parser.parse_bitfield Checked default_features (u_decl\n  {u})) = true.\nProof. vm_compute. reflexivity. Qed.\n")
                        else:
                            miss = []
                            for ln, msg in errs:
                                m = re.match(r"no (?:method|function or associated item) named `(\w+)` found for struct `(\w+)`", msg)
                                tr = [x for y, x in (("From<", "from"), ("implement `Debug", "fmt"), ("mismatched types", "from")) if y in msg]
                                if "cannot find type" in msg:
                                    miss += [f"TNot (TIsBuilder {q(sname)} {q(x)})" for x in ("new", "build")]
                                elif tr:
                                    miss.append(f"TNot (TIsTrait {q(sname)} {q(tr[0])})")
                                elif not m:
                                    raise Skip("message " + msg)
                                elif m.group(1) == "default":
                                    miss.append(f"TNot (TIsTrait {q(sname)} {q('default')})")
                                elif m.group(2).endswith("Builder"):
                                    miss.append(f"TNot (TIsBuilder {q(sname)} {q(m.group(1))})")
                                else:
                                    miss.append(f"TNot (TIs {q(sname)} {q(m.group(1))})")
                            body = "; ".join(f"SAssert ({m})" for m in miss)
                            out.append(f"(* {line}: {'; '.join(e[1][:60] for e in errs)} *)\nExample {ex} : is_passed (run_test [{u}]\n  [{body}]) = true.\nProof. vm_compute. reflexivity. Qed.\n")
                    except Skip as e:
                        skipped.append((line, ex, str(e)))
                for o in out:
                    print(o)
                n += len(out)
                k += 1
            except Skip as e:
                skipped.append((rel, name, str(e)))
            except (IndexError, KeyError, TypeError, ValueError, AttributeError) as e:
                skipped.append((rel, name, "translator: " + repr(e)))
    sys.stderr.write(f"{n} declarations of {k} compile error cases\n")
    return n


def documents(repo):
    """Programs of the documentation: name, file and line, text."""
    for file, mark in [("README.md", ""), ("bitfields_impl/src/lib.rs", "/// ")]:
        lines = open(os.path.join(repo, file)).read().split("\n")
        start = None
        for i, l in enumerate(lines):
            x = l[len(mark):] if l.startswith(mark) else (l[len(mark.rstrip()):] if l.startswith(mark.rstrip()) else None)
            if x is None:
                start = None
            elif x.strip() == "```rust" and start is None:
                start = i + 1
            elif x.strip() == "```" and start is not None:
                body = "\n".join(re.sub(r"^# ?(?!\[)", "", y[len(mark):]) if mark else y for y in lines[start:i])
                yield (("readme_" if not mark else "doc_") + str(start), f"{file}:{start}", body)
                start = None
    d = os.path.join(repo, "bitfields/examples")
    for file in sorted(os.listdir(d)):
        yield ("example_" + file[:-3], f"bitfields/examples/{file}", open(os.path.join(d, file)).read())


def flatten(toks):
    """The program with the body of main in place of main."""
    p, out = P(toks), []
    while p.i < len(p.t):
        if p.peek() == "fn" and p.peek(1) == "main":
            p.next(), p.next(), p.group()
            out += p.group()
        else:
            out.append(p.t[p.i])
            p.i += 1
    return out


def main(repo):
    print(HEADER)
    skipped, done, seen = [], 0, set()
    for file in ["lib_tests.rs", "lib_array_backed_tests.rs", "lib_array_field_tests.rs", "lib_array_field_array_backed_tests.rs",
                 "lib_feature_flag_tests.rs"]:
        text = open(os.path.join(repo, "bitfields/tests", file)).read()
        toks = lex(text)
        p = P(toks)
        while p.i < len(p.t):
            if p.peek() == "#" and p.peek(1) == "[" and p.peek(2) == "test":
                back = text[max(0, p.t[p.i][2] - 200):p.t[p.i][2]]
                cfg = re.search(r'#\[cfg\(([^\n]*)\)\]\s*(#\[[^\]]*\]\s*)*$', back)
                panic = False
                while p.peek() == "#":
                    p.next()
                    panic |= p.group()[0][1] == "should_panic"
                p.need("fn")
                name = p.next()
                line = f"{file}:{text.count(chr(10), 0, p.t[p.i][2]) + 1}"
                p.group()
                body = p.group()
                if cfg and ("not(" in cfg.group(1) or "little" in cfg.group(1)):
                    skipped.append((line, name, "cfg " + cfg.group(1)))
                    continue
                try:
                    t = Test(name, line, body, text)
                    while t.name in seen:
                        t.name += "_"
                    out = t.coq(panic)
                    if not t.order:
                        if not t.out:
                            raise Skip("no bitfield")
                    seen.add(t.name)
                    print(out)
                    done += 1
                except Skip as e:
                    skipped.append((line, name, str(e)))
                except (IndexError, KeyError, TypeError, ValueError, AttributeError) as e:
                    skipped.append((line, name, "translator: " + repr(e)))
            else:
                p.i += 1
    print("(** ** Programs of the documentation *)\n")
    docs = 0
    for name, line, text in documents(repo):
        try:
            t = Test(name, line, flatten(lex(text)), text)
            if not t.order:
                raise Skip("no bitfield")
            print(t.coq(False))
            docs += 1
        except Skip as e:
            skipped.append((line, name, str(e)))
        except (IndexError, KeyError, TypeError, ValueError, AttributeError) as e:
            skipped.append((line, name, "translator: " + repr(e)))
    sys.stderr.write(f"{docs} programs\n")
    print("(** ** compile_error_cases *)\n")
    n = compile_cases(repo, seen, skipped)
    print(f"(* {done} tests, {docs} programs of the documentation and {n} declarations of the compile error cases translated.  Skipped:")
    for s in skipped:
        print("   " + " ".join(s).replace("(*", "( *").replace("*)", "* )").replace('"', "'"))
    print("*)")
    sys.stderr.write(f"{done} translated, {len(skipped)} skipped\n")


main(sys.argv[1])
