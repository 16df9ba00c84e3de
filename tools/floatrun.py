#!/usr/bin/env python3
"""Run definitions of the model with floats in place of real numbers.

The definitions are taken from coqc (Print with Printing All), so what runs is the model that the theorems
are about; only the operations on R are replaced (table PRIM).  Used by tools/numcheck.py.

    from floatrun import Runner
    r = Runner("/verif/rocq/theories"); v = r.run("M_Corr.wgs_grav 45")
"""
import math, os, re, subprocess, sys, tempfile, threading
sys.setrecursionlimit(10 ** 6)

# ---------------------------------------------------------------- parsing
TOK = re.compile(r"\s*(?:(\(\*.*?\*\))|(:=|=>|\{|\}|\(|\)|\||,|:|@)|(\?[A-Za-z_0-9]+|[A-Za-z_][A-Za-z_0-9'.]*)|(\S))", re.S)
KEY = {"fun", "forall", "let", "in", "match", "with", "end", "fix", "return", "as", "for"}


def tokens(s):
    out, i = [], 0
    while i < len(s):
        m = TOK.match(s, i)
        if not m:
            break
        i = m.end()
        t = m.group(2) or m.group(3) or m.group(4)
        if t:
            out.append(t)
    return out


class Parser:
    def __init__(self, toks):
        self.t, self.i = toks, 0

    def peek(self):
        return self.t[self.i] if self.i < len(self.t) else None

    def next(self):
        x = self.t[self.i]
        self.i += 1
        return x

    def need(self, x):
        y = self.next()
        if y != x:
            raise SyntaxError("expected %s, found %s near %s" % (x, y, " ".join(self.t[self.i - 8:self.i + 8])))

    def binders(self, stop):
        names = []
        while self.peek() not in stop:
            if self.peek() == "(":
                self.next()
                while self.peek() != ":":
                    names.append(self.next())
                self.next()
                self.term()
                self.need(")")
            elif self.peek() == "{":
                while self.next() != "}":
                    pass
            elif self.peek() == ":":
                self.next()
                self.term()
            else:
                names.append(self.next())
        return names

    def term(self):
        p = self.peek()
        if p == "fun":
            self.next()
            b = self.binders(("=>",))
            self.need("=>")
            return ("fun", b, self.term())
        if p == "forall":
            self.next()
            self.binders((",",))
            self.need(",")
            self.term()
            return ("type",)
        if p == "let":
            self.next()
            x = self.next()
            if self.peek() == ":":
                self.next()
                self.term()
            self.need(":=")
            a = self.term()
            self.need("in")
            return ("let", x, a, self.term())
        if p == "fix":
            self.next()
            f = self.next()
            b = self.binders((":=",))
            self.need(":=")
            return ("fix", f, b, self.term())
        return self.app()

    def app(self):
        f = self.atom()
        args = []
        while self.peek() is not None and self.peek() not in (")", "|", ",", ":", ":=", "=>", "{", "}") and self.peek() not in KEY - {"match"}:
            args.append(self.atom())
        return ("app", f, args) if args else f

    def atom(self):
        x = self.next()
        if x == "(":
            t = self.term()
            if self.peek() == ":":
                self.next()
                self.term()
            self.need(")")
            return t
        if x == "@":
            return ("var", self.next())
        if x == "match":
            s = self.term()
            if self.peek() == "as":
                self.next()
                self.next()
            if self.peek() == "in":
                self.next()
                self.term()
            if self.peek() == "return":
                self.next()
                self.term()
            self.need("with")
            cases = []
            while self.peek() == "|":
                self.next()
                pat = []
                while self.peek() != "=>":
                    pat.append(self.next())
                self.need("=>")
                cases.append((pat, self.term()))
            self.need("end")
            return ("match", s, cases)
        return ("var", x)


# ---------------------------------------------------------------- values
class Thunk:
    __slots__ = ("f", "v")

    def __init__(self, f):
        self.f = f

    def get(self):
        if self.f is not None:
            v = self.f()
            while isinstance(v, Thunk):
                v = v.get()
            self.v = v
            self.f = None
        return self.v


def force(x):
    while isinstance(x, Thunk):
        x = x.get()
    return x


class Con:
    __slots__ = ("name", "args")

    def __init__(self, name, args=()):
        self.name, self.args = name, args

    def __repr__(self):
        return "%s(%s)" % (self.name, ", ".join(repr(force(a)) for a in self.args))


def apply(f, args):
    f = force(f)
    for a in args:
        if isinstance(f, Con):
            f = Con(f.name, f.args + (a,))
        else:
            f = force(f(a))
    return f


def prim(n, fn):
    """curried strict function of n arguments"""
    def go(got):
        def step(a):
            g = got + (force(a),)
            return fn(*g) if len(g) == n else go(g)
        return step
    return go(())


B = {True: Con("true"), False: Con("false")}
D = {True: Con("left", (None,)), False: Con("right", (None,))}


def rinv(x):
    return 1.0 / x if x != 0 else 0.0


def erfcinv(y):
    if y < 0 or y > 2:
        return Con("None", (None,))
    if y == 0:
        return Con("Some", (None, Con("p_infty")))
    if y == 2:
        return Con("Some", (None, Con("m_infty")))
    lo, hi = -30.0, 30.0
    for _ in range(300):
        m = (lo + hi) / 2
        if math.erfc(m) > y:
            lo = m
        else:
            hi = m
    return Con("Some", (None, Con("Finite", (lo,))))


def rbar_mult(x, y):
    """Coquelicot's Rbar_mult' on Finite, p_infty, m_infty"""
    f = lambda v: force(v.args[-1]) if v.name == "Finite" else math.inf if v.name == "p_infty" else -math.inf
    z = f(x) * f(y)
    if math.isnan(z):
        return Con("None", (None,))
    return Con("Some", (None, Con("p_infty") if z == math.inf else Con("m_infty") if z == -math.inf else Con("Finite", (z,))))


def zpow(a, b):
    return a ** b if b >= 0 else 0


def prims():
    P = {}

    def d(names, n, fn):
        for x in names.split():
            P[x] = prim(n, fn) if n else fn
    d("Rplus", 2, lambda a, b: a + b)
    d("Rminus", 2, lambda a, b: a - b)
    d("Rmult", 2, lambda a, b: a * b)
    d("Ropp", 1, lambda a: -a)
    d("Rinv", 1, rinv)
    d("Rdiv", 2, lambda a, b: a * rinv(b) if b == 0 else a / b)
    d("IZR INR", 1, float)
    d("Q2R", 1, lambda q: force(q.args[0]) / force(q.args[1]))
    d("Rsqr", 1, lambda a: a * a)
    for f in ("sin", "cos", "tan", "atan", "asin", "acos", "exp", "sqrt", "sinh", "cosh", "tanh"):
        d(f, 1, getattr(math, f))
    d("ln", 1, math.log)
    d("Rabs", 1, abs)
    d("PI", 0, math.pi)
    d("pow", 2, lambda a, n: a ** n)
    d("powerRZ", 2, lambda a, n: float(a) ** n)
    d("Rpower", 2, lambda a, b: a ** b)
    d("Rmax", 2, max)
    d("Rmin", 2, min)
    d("Rlt_dec", 2, lambda a, b: D[a < b])
    d("Rle_dec", 2, lambda a, b: D[a <= b])
    d("Rgt_dec", 2, lambda a, b: D[a > b])
    d("Rge_dec", 2, lambda a, b: D[a >= b])
    d("Req_EM_T Req_dec_T Req_dec", 2, lambda a, b: D[a == b])
    d("Int_part", 1, lambda a: math.floor(a))
    d("up", 1, lambda a: math.floor(a) + 1)
    d("M_Erf.erf", 1, math.erf)
    d("M_Erf.erfcinv", 1, erfcinv)
    d("Rbar_mult'", 2, rbar_mult)
    d("O", 0, 0)
    d("S", 1, lambda n: n + 1)
    d("Z0 N0", 0, 0)
    d("xH", 0, 1)
    d("xO", 1, lambda p: 2 * p)
    d("xI", 1, lambda p: 2 * p + 1)
    d("Zpos Npos", 1, lambda p: p)
    d("Zneg", 1, lambda p: -p)
    d("Z.of_nat Nat.to_nat Z.of_N", 1, lambda p: p)
    d("Z.to_nat", 1, lambda p: max(p, 0))
    d("Pos.to_nat", 1, lambda p: p)
    for m in ("Z", "Nat", "Pos", "N"):
        d(m + ".add", 2, lambda a, b: a + b)
        d(m + ".mul", 2, lambda a, b: a * b)
        d(m + ".sub", 2, (lambda a, b: a - b) if m == "Z" else (lambda a, b: max(a - b, 0)))
        d(m + ".div", 2, lambda a, b: a // b if b else 0)
        d(m + ".modulo", 2, lambda a, b: a % b if b else a)
        d(m + ".pow", 2, zpow)
        d(m + ".pow_pos", 2, zpow)
        d(m + ".eqb", 2, lambda a, b: B[a == b])
        d(m + ".ltb", 2, lambda a, b: B[a < b])
        d(m + ".leb", 2, lambda a, b: B[a <= b])
        d(m + ".gtb", 2, lambda a, b: B[a > b])
        d(m + ".geb", 2, lambda a, b: B[a >= b])
        d(m + ".even", 1, lambda a: B[a % 2 == 0])
        d(m + ".odd", 1, lambda a: B[a % 2 == 1])
        d(m + ".max", 2, max)
        d(m + ".min", 2, min)
        d(m + ".pred", 1, (lambda a: a - 1) if m == "Z" else (lambda a: max(a - 1, 0)))
        d(m + ".succ", 1, lambda a: a + 1)
        d(m + ".opp", 1, lambda a: -a)
        d(m + ".abs", 1, abs)
        d(m + ".eq_dec", 2, lambda a, b: D[a == b])
        d(m + ".div2", 1, lambda a: a // 2)
    return P


PRIM = prims()
NUMCON = {"O", "S", "Z0", "Zpos", "Zneg", "xH", "xO", "xI", "N0", "Npos"}


def lookup_prim(name):
    parts = name.split(".")
    for k in (2, 1):
        n = ".".join(parts[-k:])
        if n in PRIM and (k == 2 or not re.match(r"(Nat|Z|Pos|N|M_\w+|L_\w+|S_\w+)$", parts[-2] if len(parts) > 1 else "")):
            return PRIM[n]
    return None


# ---------------------------------------------------------------- compiling to closures
class Runner:
    def __init__(self, theories, require=None):
        self.dir = theories
        self.mods = require or sorted(f[:-2] for f in os.listdir(theories) if f.startswith("M_") and f.endswith(".v"))
        self.text = {}      # name -> ("def", ast) | ("con",) | ("type",)
        self.val = {}

    def coq(self, body):
        with tempfile.TemporaryDirectory() as d:
            fn = os.path.join(d, "run.v")
            pre = "From Coq Require ZArith QArith Reals List.\nFrom Coq Require Import Reals List ZArith. Import ListNotations. Open Scope R_scope.\n"
            pre += "".join("From Verif Require %s.\n" % m for m in self.mods)
            open(fn, "w").write(pre + body)
            r = subprocess.run(["coqc", "-Q", self.dir, "Verif", fn], capture_output=True, text=True)
            if r.returncode:
                raise RuntimeError(r.stderr + r.stdout[-2000:])
            return r.stdout

    OPT = "Set Printing All. Set Printing Width 1000000. Set Printing Depth 1000000.\n"

    def fetch(self, names, decls=""):
        names = [n for n in names if n not in self.text]
        while names:
            body = decls + self.OPT
            for k, n in enumerate(names):
                body += "Check (fun MARKER_%d : Set => MARKER_%d).\nPrint %s.\n" % (k, k, n)
            out = self.coq(body)
            found = set()
            for k, n in enumerate(names):
                m = re.search(r"fun MARKER_%d : Set => MARKER_%d\n.*?\n(.*?)(?=\nfun MARKER_|\Z)" % (k, k), out, re.S)
                txt = m.group(1)
                if re.match(r"\s*(Inductive|Variant|Record|CoInductive)\b", txt):
                    self.text[n] = ("con", n.split(".")[-1])
                    continue
                if not re.match(r"\S+\s*=", txt):
                    self.text[n] = ("axiom", n)
                    continue
                toks = tokens(txt)
                i = toks.index("=")
                p = Parser(toks[i + 1:])
                ast = p.term()
                self.text[n] = ("def", ast)
                self.free(ast, frozenset(), found)
            names = [n for n in found if n not in self.text and lookup_prim(n) is None]

    def free(self, t, bound, acc):
        k = t[0]
        if k == "var":
            if t[1] not in bound and t[1] not in ("Set", "Type", "Prop", "_"):
                acc.add(t[1])
        elif k == "app":
            self.free(t[1], bound, acc)
            for a in t[2]:
                self.free(a, bound, acc)
        elif k == "fun":
            self.free(t[2], bound | set(t[1]), acc)
        elif k == "fix":
            self.free(t[3], bound | set(t[2]) | {t[1]}, acc)
        elif k == "let":
            self.free(t[2], bound, acc)
            self.free(t[3], bound | {t[1]}, acc)
        elif k == "match":
            self.free(t[1], bound, acc)
            for pat, b in t[2]:
                self.free(b, bound | set(pat[1:]), acc)

    def const(self, name):
        if name not in self.val:
            p = lookup_prim(name)
            if p is not None:
                self.val[name] = p
            else:
                e = self.text.get(name)
                if e is None or e[0] == "axiom":
                    self.val[name] = Thunk(lambda: (_ for _ in ()).throw(NameError(name)))
                elif e[0] == "con":
                    self.val[name] = Con(e[1])
                else:
                    c = self.comp(e[1], ())
                    self.val[name] = Thunk(lambda: force(c({})))
        return self.val[name]

    def comp(self, t, bound):
        k = t[0]
        if k == "type":
            return lambda env: None
        if k == "var":
            n = t[1]
            if n in bound:
                return lambda env: env[n]
            if n in ("Set", "Type", "Prop", "_"):
                return lambda env: None
            return lambda env: self.const(n)
        if k == "app":
            f = self.comp(t[1], bound)
            args = [self.arg(a, bound) for a in t[2]]
            return lambda env: apply(f(env), [a(env) for a in args])
        if k == "fun":
            return self.lam(t[1], t[2], bound)
        if k == "let":
            a = self.arg(t[2], bound)
            b = self.comp(t[3], set(bound) | {t[1]})
            x = t[1]

            def let(env):
                e = dict(env)
                e[x] = a(env)
                return b(e)
            return let
        if k == "fix":
            f = t[1]
            body = self.lam(t[2], t[3], set(bound) | {f})

            def fix(env):
                e = dict(env)
                e[f] = Thunk(lambda: body(e))
                return force(e[f])
            return fix
        if k == "match":
            s = self.comp(t[1], bound)
            table = {}
            default = None
            for pat, b in t[2]:
                vs = pat[1:]
                c = self.comp(b, set(bound) | set(vs))
                if pat[0] == "_":
                    default = c
                else:
                    table[pat[0].split(".")[-1]] = (vs, c)

            def match(env):
                v = force(s(env))
                if isinstance(v, Con):
                    key, args = v.name, v.args
                elif isinstance(v, int):
                    if "O" in table or "S" in table:
                        key, args = ("O", ()) if v == 0 else ("S", (v - 1,))
                    elif "xH" in table or "xO" in table or "xI" in table:
                        key, args = ("xH", ()) if v == 1 else (("xI" if v % 2 else "xO"), (v // 2,))
                    elif "N0" in table or "Npos" in table:
                        key, args = ("N0", ()) if v == 0 else ("Npos", (v,))
                    else:
                        key, args = ("Z0", ()) if v == 0 else (("Zpos", (v,)) if v > 0 else ("Zneg", (-v,)))
                else:
                    raise TypeError("match on %r" % (v,))
                if key not in table:
                    return default(env)
                vs, c = table[key]
                if not vs:
                    return c(env)
                e = dict(env)
                for x, a in zip(vs, args[len(args) - len(vs):]):
                    e[x] = a
                return c(e)
            return match
        raise ValueError(t)

    def arg(self, a, bound):
        if a[0] == "var":
            c = self.comp(a, bound)
            return c
        c = self.comp(a, bound)
        return lambda env: Thunk(lambda: force(c(env)))

    def lam(self, names, body, bound):
        b = self.comp(body, set(bound) | set(names))

        def go(i, env):
            if i == len(names):
                return b(env)

            def f(a):
                e = dict(env)
                e[names[i]] = a
                return go(i + 1, e)
            return f
        return lambda env: go(0, env)

    def run(self, expr, decls=""):
        """value of a Coq expression, lists and tuples as Python ones"""
        decls = decls + "\nDefinition run_main := %s.\n" % expr
        self.text.pop("run_main", None)
        self.val.pop("run_main", None)
        self.fetch(["run_main"], decls)
        return self.plain(self.const("run_main"))

    def plain(self, v):
        v = force(v)
        if not isinstance(v, Con):
            return v
        if v.name in ("nil", "cons"):
            out = []
            while v.name == "cons":
                out.append(self.plain(v.args[-2]))
                v = force(v.args[-1])
            return out
        if v.name == "pair":
            return (self.plain(v.args[-2]), self.plain(v.args[-1]))
        if v.name in ("true", "false"):
            return v.name == "true"
        if v.name == "None":
            return None
        if v.name == "Some":
            return self.plain(v.args[-1])
        if v.name == "Ok":
            return self.plain(v.args[-1])
        return (v.name,) + tuple(self.plain(a) if a is not None and not callable(a) else None for a in v.args)


def main(f):
    """run f on a large stack"""
    threading.stack_size(1 << 30)
    th = threading.Thread(target=f)
    th.start()
    th.join()
