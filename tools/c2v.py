#!/usr/bin/env python3
"""Translates the C text of /repo/mulib into terms of the syntax of rocq/theories/CLang.v.

usage: c2v.py [repo] [outdir]      writes Src*.v
The translation is syntactic: a preprocessor (includes of mulib's own headers, object-like and
function-like macros, #ifdef), a recursive-descent parser of the subset of C that mulib uses, and
one constructor per construct:
  a[i]      *(a + i)                         e->f      ( *e).f
  for(i;c;s) b    i; SLoop c s b             while(c) b   SLoop c SSkip b
  T x = {.f = e, ...}    x.f = e; ...        (void)e;     e;
  memmove(d, s, n * sizeof(T))   EMemmove T d s (n * sizeof(T))   (T = uint8_t without sizeof)
  sizeof(a[i])   the size of the element type
  f(T x, ...)    an additional parameter "..." of type void *, the object with the variable arguments;
  va_start(ap, x)   ap = ...          va_end(ap)   ap
  static T *a[] = {"s", ...}   the type with the size; init_a lists the objects of the strings (the
                 initial contents of a are part of the statements about the program)
Anything else (do, goto, switch, double ...) makes it stop with an error, or leaves the
function out if it is listed in SKIP below.
Locals declared in different blocks under the same name become one variable, which is only done if
their types agree and no declaration is in the scope of another.
"""
import re, sys, os

REPO = sys.argv[1] if len(sys.argv) > 1 else '/repo'
OUT = sys.argv[2] if len(sys.argv) > 2 else os.path.join(os.path.dirname(__file__), '..', 'rocq', 'theories')

# macros of the C library's headers
PREDEF = {'SIZE_MAX': '((size_t)-1)', 'INT_MAX': '2147483647', 'NULL': '0', 'true': '1', 'false': '0',
          'bool': '_Bool', 'PRId64': '"ld"'}
# macros of mu_platform.h that a project may define: kept as named constants
SYMBOLIC = {'MU_SCHED_MAX_DEFERRED_TASKS': 'max_deferred', 'MU_SCHED_MAX_IRQ_TASKS': 'max_irq',
            'MU_SCHED_MAX_IMMED_TASKS': 'max_immed'}
BASE = {'void': 'Tvoid', '_Bool': 'Tbool', 'char': 'Tint true W8', 'int': 'int', 'unsigned': 'Tint false W32',
        'unsigned int': 'Tint false W32',
        'int8_t': 'Tint true W8', 'uint8_t': 'Tint false W8', 'int16_t': 'Tint true W16', 'uint16_t': 'Tint false W16',
        'int32_t': 'int', 'uint32_t': 'Tint false W32', 'int64_t': 'Tint true W64', 'uint64_t': 'Tint false W64',
        'size_t': 'Tsize', 'uintptr_t': 'Tsize', 'double': 'DOUBLE', 'va_list': 'Tptr Tvoid'}

VARARGS = '...'

class Err(Exception): pass

# ---------------------------------------------------------------- lexer
TOK = re.compile(r'''\s*(?:
  (?P<str>"(?:\\.|[^"\\])*") | (?P<chr>'(?:\\.|[^'\\])') | (?P<num>0[xX][0-9a-fA-F]+|\d+) | (?P<id>[A-Za-z_]\w*) |
  (?P<op>\.\.\.|<<=|>>=|->|\+\+|--|<<|>>|<=|>=|==|!=|&&|\|\||\+=|-=|\*=|/=|%=|&=|\|=|\^=|\#\#|[-+*/%&|^~!<>=?:;,.(){}\[\]\#])
  )''', re.X)

def strip_comments(s):
    def blank(m): return re.sub(r'[^\n]', ' ', m.group(0))
    return re.sub(r'/\*.*?\*/|//[^\n]*|"(?:\\.|[^"\\])*"', lambda m: m.group(0) if m.group(0)[0] == '"' else blank(m), s, flags=re.S)

def lex(s, file, line):
    out, i = [], 0
    s = s.rstrip()
    while i < len(s):
        m = TOK.match(s, i)
        if not m: raise Err(f'{file}:{line}: cannot lex {s[i:i+20]!r}')
        k = m.lastgroup
        out.append((k, m.group(k), file, line)); i = m.end()
    return out

class Pre:
    def __init__(self):
        self.macros, self.seen = {}, set()
        for k, v in PREDEF.items(): self.macros[k] = (None, lex(v, 'predef', 0))
    def expand(self, toks, hide=frozenset()):
        out, i = [], 0
        while i < len(toks):
            t = toks[i]
            if t[0] == 'id' and t[1] in self.macros and t[1] not in hide and t[1] not in SYMBOLIC:
                params, body = self.macros[t[1]]
                if params is None:
                    out += self.expand([(b[0], b[1], t[2], t[3]) for b in body], hide | {t[1]}); i += 1; continue
                if i + 1 < len(toks) and toks[i+1][1] == '(':
                    args, depth, j, cur = [], 0, i + 2, []
                    while True:
                        if j >= len(toks): raise Err('macro call')
                        x = toks[j]
                        if x[1] == '(' : depth += 1
                        if x[1] == ')' :
                            if depth == 0: args.append(cur); break
                            depth -= 1
                        if x[1] == ',' and depth == 0: args.append(cur); cur = []
                        else: cur.append(x)
                        j += 1
                    if '...' not in params and len(args) != len(params): raise Err(f'arity of {t[1]}')
                    env = {q: self.expand(a, hide) for q, a in zip(params, args)}
                    body2 = []
                    for b in body:
                        if b[0] == 'id' and b[1] in env: body2 += [(x[0], x[1], t[2], x[3]) for x in env[b[1]]]
                        else: body2.append((b[0], b[1], t[2], t[3]))
                    out += self.expand(body2, hide | {t[1]}); i = j + 1; continue
            out.append(t); i += 1
        return out
    def file(self, name):
        if name in self.seen: return []
        self.seen.add(name)
        path = os.path.join(REPO, 'mulib', name)
        src = strip_comments(open(path).read())
        lines = src.split('\n')
        raw, i, stack = [], 0, []   # stack of booleans: is this branch active
        out = []
        def flush():
            nonlocal raw
            if raw: out.extend(self.expand(raw)); raw = []
        while i < len(lines):
            l, n = lines[i], i + 1
            while l.rstrip().endswith('\\'):
                i += 1; l = l.rstrip()[:-1] + ' ' + lines[i]
            i += 1
            m = re.match(r'\s*#\s*(\w+)\s*(.*)', l)
            if not m:
                if all(stack): raw += lex(l, name, n)
                continue
            d, rest = m.group(1), m.group(2).strip()
            if d == 'ifdef': stack.append(rest in self.macros); continue
            if d == 'ifndef': stack.append(rest not in self.macros); continue
            if d == 'if': stack.append(False); continue
            if d == 'else': stack[-1] = not stack[-1]; continue
            if d == 'endif': stack.pop(); continue
            if not all(stack): continue
            if d == 'include':
                flush()
                if rest[0] == '"': out += self.file(rest.strip('"'))
            elif d == 'define':
                flush()
                mm = re.match(r'(\w+)(\(([^)]*)\))?\s*(.*)', rest)
                if rest[len(mm.group(1)):len(mm.group(1))+1] == '(':
                    ps = [x.strip() for x in mm.group(3).split(',')]
                    self.macros[mm.group(1)] = (ps, lex(mm.group(4), name, n))
                else:
                    self.macros[mm.group(1)] = (None, lex(rest[len(mm.group(1)):], name, n))
            elif d == 'undef': flush(); self.macros.pop(rest, None)
            elif d == 'error': raise Err(l)
            else: raise Err('directive ' + d)
        flush()
        return out

# ---------------------------------------------------------------- parser
BIN = [['||'], ['&&'], ['|'], ['^'], ['&'], ['==', '!='], ['<', '>', '<=', '>='], ['<<', '>>'], ['+', '-'], ['*', '/', '%']]
OPN = {'+': 'Add', '-': 'Sub', '*': 'Mul', '/': 'Div', '%': 'Mod', '<<': 'Shl', '>>': 'Shr', '&': 'BAnd', '|': 'BOr',
       '<': 'Lt', '>': 'Gt', '<=': 'Le', '>=': 'Ge', '==': 'Eq', '!=': 'Ne'}
QUAL = {'const', 'volatile', 'static', 'extern', 'struct', 'register', 'inline'}

def par(t): return t if re.fullmatch(r'\w+', t) else f'({t})'
def q(s): return '"' + s + '"'
def z(n): return str(n) if n >= 0 else f'({n})'

class Unit:
    """the translation of one .c file"""
    def __init__(self, name):
        self.name = name
        self.toks = Pre().file(name); self.i = 0
        self.types = dict(BASE); self.structs = []; self.consts = []; self.globals = []; self.funs = []; self.skipped = []
        self.strings = []; self.inits = []
    # token access
    def pk(self, k=0): return self.toks[self.i+k] if self.i + k < len(self.toks) else ('eof', '', '', 0)
    def at(self, v, k=0): return self.pk(k)[1] == v and self.pk(k)[0] in ('op', 'id')
    def nx(self): t = self.pk(); self.i += 1; return t
    def eat(self, v):
        if not self.at(v): t = self.pk(); raise Err(f'{t[2]}:{t[3]}: expected {v}, found {t[1]}')
        return self.nx()
    def err(self, m): t = self.pk(); raise Err(f'{t[2]}:{t[3]}: {m} at {t[1]}')
    # types
    def is_type(self, k=0):
        t = self.pk(k); return t[0] == 'id' and (t[1] in self.types or t[1] in QUAL or t[1] in ('enum', 'union'))
    def base_type(self):
        """declaration specifiers; returns Coq type"""
        ty = None
        while True:
            t = self.pk()
            if t[1] == 'struct':
                self.nx(); tag = None
                if self.pk()[0] == 'id': tag = self.nx()[1]
                if self.at('{'):
                    ms = self.members(); ty = ('STRUCT', tag, ms)
                else: ty = f'Tstruct "{self.tags.get(tag, tag)}"' if hasattr(self, 'tags') else f'Tstruct "{tag}"'
            elif t[1] == 'enum':
                self.nx()
                if self.pk()[0] == 'id': self.nx()
                self.eat('{'); v = 0; neg = False
                while not self.at('}'):
                    n = self.nx()[1]
                    if self.at('='):
                        self.nx(); s = 1
                        if self.at('-'): self.nx(); s = -1
                        v = s * int(self.nx()[1], 0)
                    neg |= v < 0
                    self.consts.append((n, v)); v += 1
                    if self.at(','): self.nx()
                self.eat('}'); ty = 'int' if neg else 'Tint false W32'
            elif t[1] in QUAL: self.nx()
            elif ty is None and t[0] == 'id' and t[1] in self.types:
                self.nx(); n = t[1]
                if n == 'unsigned' and self.at('int'): self.nx()
                ty = self.types[n]
            else: break
        if ty is None: self.err('type expected')
        return ty
    def members(self):
        self.eat('{'); ms = []
        while not self.at('}'):
            if self.at('union'):
                self.nx(); self.eat('{'); alts = []
                while not self.at('}'):
                    b = self.base_type(); n, t = self.declarator(b); alts.append((n, t)); self.eat(';')
                self.eat('}'); self.eat(';'); ms.append(alts)
            else:
                b = self.base_type(); n, t = self.declarator(b); ms.append([(n, t)]); self.eat(';')
        self.eat('}'); return ms
    def declarator(self, b):
        """returns (name or None, type)"""
        t = b
        while self.at('*') or self.at('const') or self.at('volatile'):
            if self.nx()[1] == '*': t = 'Tptr ' + par(t)
        if self.at('(') and self.at('*', 1):          # pointer to function
            self.nx(); self.nx(); n = self.nx()[1]; self.eat(')'); self.skip_parens(); return n, 'Tptr Tfn'
        n = self.nx()[1] if self.pk()[0] == 'id' else None
        dims = []
        while self.at('['):
            self.nx(); dims.append(self.array_size()); self.eat(']')
        for d in reversed(dims): t = f'Tarr {par(t)} {d}'
        return n, t
    def array_size(self):
        if self.at(']'): return 'UNSIZED'
        t = self.nx()
        if t[0] == 'num': return str(int(t[1], 0))
        if t[1] in SYMBOLIC: return SYMBOLIC[t[1]]
        raise Err(f'array size {t}')
    def skip_parens(self):
        self.eat('('); d = 1
        while d:
            x = self.nx()[1]; d += (x == '(') - (x == ')')
    # expressions; result: (coq, info) with info = ('sizeof' ...) when useful
    def expr(self):
        return self.assign()
    def assign(self):
        l = self.cond(); t = self.pk()
        if t[1] == '=' and t[0] == 'op': self.nx(); r = self.assign(); return f'EAssign {par(l)} {par(r)}'
        if t[0] == 'op' and t[1] in ('+=', '-=', '*=', '/=', '%=', '<<=', '>>=', '&=', '|='):
            self.nx(); r = self.assign(); return f'EAssignOp {OPN[t[1][:-1]]} {par(l)} {par(r)}'
        return l
    def cond(self):
        c = self.binary(0)
        if self.at('?'):
            self.nx(); a = self.expr(); self.eat(':'); b = self.cond(); return f'ECond {par(c)} {par(a)} {par(b)}'
        return c
    def binary(self, k):
        if k == len(BIN): return self.unary()
        l = self.binary(k + 1)
        while self.pk()[0] == 'op' and self.pk()[1] in BIN[k]:
            o = self.nx()[1]; r = self.binary(k + 1)
            if o == '&&': l = f'EAnd {par(l)} {par(r)}'
            elif o == '||': l = f'EOr {par(l)} {par(r)}'
            elif o == '^': self.err('xor')
            else: l = f'EBin {OPN[o]} {par(l)} {par(r)}'
        return l
    def unary(self):
        t = self.pk()
        if t[0] == 'op':
            if t[1] in ('++', '--'): self.nx(); return f'EPre {"Add" if t[1]=="++" else "Sub"} {par(self.unary())}'
            if t[1] == '-':
                self.nx(); return f'ENeg {par(self.unary())}'
            if t[1] == '!': self.nx(); return f'ENot {par(self.unary())}'
            if t[1] == '*': self.nx(); return f'EDeref {par(self.unary())}'
            if t[1] == '&':
                self.nx(); e = self.unary(); m = re.fullmatch(r'EVar "(\w+)"', e)
                if m and m.group(1) in self.locals: self.addr.add(m.group(1))
                return f'EAddr {par(e)}'
            if t[1] == '(' and self.is_type(1):
                self.nx(); b = self.base_type(); _, ty = self.declarator(b); self.eat(')')
                if self.at('{'): self.err('compound literal')
                e = self.unary()
                if ty == 'Tvoid': return ('void', e)
                if ty == 'DOUBLE': self.err('double')
                return f'ECast {par(ty)} {par(e)}'
        if t[1] == 'sizeof':
            self.nx(); self.eat('(')
            if self.is_type(): b = self.base_type(); _, ty = self.declarator(b)
            else:
                n = self.nx()[1]; ty = self.locals.get(n, dict(self.globals).get(n))
                if ty is None: self.err('sizeof')
                if self.at('['):                         # sizeof(array[i])
                    m = re.fullmatch(r'Tarr (\(.*\)|\w+) \S+', ty)
                    if not m: self.err('sizeof')
                    ty = m.group(1)[1:-1] if m.group(1)[0] == '(' else m.group(1); self.nx(); self.expr(); self.eat(']')
            self.eat(')'); return f'ESizeof {par(ty)}'
        return self.postfix()
    def postfix(self):
        t = self.nx()
        if t[0] == 'num': e = f'EInt {int(t[1], 0)}'
        elif t[0] == 'chr':
            e = f'EInt {self.char(t[1][1:-1])}'
        elif t[0] == 'str':
            s = t[1][1:-1]
            while self.pk()[0] == 'str': s += self.nx()[1][1:-1]
            e = f'EVar {q(self.string(s))}'
        elif t[1] == '(': e = self.expr(); self.eat(')')
        elif t[0] == 'id':
            if t[1] == 'memmove': return self.memmove()
            if t[1] == 'va_start':
                self.eat('('); a = self.assign(); self.eat(','); self.assign(); self.eat(')')
                if VARARGS not in self.locals: self.err('va_start')
                return f'EAssign {par(a)} (EVar {q(VARARGS)})'
            if t[1] == 'va_end': self.eat('('); a = self.assign(); self.eat(')'); return a
            if t[1] in self.locals or t[1] in dict((g[0], 1) for g in self.globals) or t[1] in dict(self.consts) or t[1] in SYMBOLIC:
                e = f'EVar {q(t[1])}'
            elif self.at('('): e = 'FN ' + t[1]
            else: raise Err(f'{t[2]}:{t[3]}: unknown {t[1]}')
        else: raise Err(f'{t[2]}:{t[3]}: unexpected {t[1]}')
        while True:
            t = self.pk()
            if t[0] != 'op': break
            if t[1] == '[': self.nx(); i = self.expr(); self.eat(']'); e = f'EIndex {par(e)} {par(i)}'
            elif t[1] == '.': self.nx(); e = f'EField {par(e)} {q(self.nx()[1])}'
            elif t[1] == '->': self.nx(); e = f'EArrow {par(e)} {q(self.nx()[1])}'
            elif t[1] == '(':
                self.nx(); args = []
                while not self.at(')'):
                    args.append(self.assign())
                    if self.at(','): self.nx()
                self.eat(')'); a = '[' + '; '.join(args) + ']'
                m = re.fullmatch(r'EVar "(\w+)"|FN (\w+)', e)
                if m: e = f'ECall {q(m.group(1) or m.group(2))} {a}'
                else: e = f'ECallPtr {par(e)} {a}'
            elif t[1] in ('++', '--'): self.nx(); e = f'EPost {"Add" if t[1]=="++" else "Sub"} {par(e)}'
            else: break
        return e
    def memmove(self):
        self.eat('('); d = self.assign(); self.eat(','); s = self.assign(); self.eat(','); n = self.assign(); self.eat(')')
        m = re.fullmatch(r'EBin Mul .* \(ESizeof (\(.*\)|\w+)\)', n)
        if 'ESizeof' in n and not m: self.err('memmove')
        return f'EMemmove {m.group(1) if m else "(Tint false W8)"} {par(d)} {par(s)} {par(n)}'
    ESC = {'n': 10, '0': 0, '\\': 92, '"': 34, "'": 39, 't': 9, 'r': 13}
    def char(self, s):
        if s[0] == '\\': return self.ESC[s[1]]
        return ord(s)
    def string(self, s):
        codes, i = [], 0
        while i < len(s):
            if s[i] == '\\': codes.append(self.ESC[s[i+1]]); i += 2
            else: codes.append(ord(s[i])); i += 1
        codes.append(0)
        for n, c in self.strings:
            if c == codes: return n
        n = f'str_{len(self.strings)}'
        self.strings.append((n, codes)); self.globals.append((n, f'Tarr (Tint true W8) {len(codes)}')); return n
    # statements
    def local(self, n, ty):
        for sc in self.scopes:
            if n in sc: self.err(f'shadowed {n}')
        if n in self.locals and self.locals[n] != ty: self.err(f'{n} with two types')
        self.scopes[-1].add(n); self.locals[n] = ty
        if n not in self.order: self.order.append(n)
        if ty.startswith('Tstruct') or ty.startswith('Tarr'): self.addr.add(n)
    def decl(self):
        b = self.base_type(); out = []
        while True:
            n, ty = self.declarator(b)
            if 'DOUBLE' in ty: self.err('double')
            self.local(n, ty)
            if self.at('='):
                self.nx()
                if self.at('{'):
                    self.nx(); fs = []
                    while not self.at('}'):
                        self.eat('.'); f = self.nx()[1]; self.eat('='); e = self.assign(); fs.append((f, e))
                        if self.at(','): self.nx()
                    self.eat('}')
                    sn = re.fullmatch(r'Tstruct "(\w+)"', ty).group(1)
                    ms = dict(self.structs)[sn]
                    if not all(any(f == a[0] for f, _ in fs for a in alt) for alt in ms): self.err('partial initialiser')
                    out += [f'SExpr (EAssign (EField (EVar {q(n)}) {q(f)}) {par(e)})' for f, e in fs]
                else: out.append(f'SDecl {q(n)} (Some {par(self.assign())})')
            else: out.append(f'SDecl {q(n)} None')
            if self.at(','): self.nx(); continue
            self.eat(';'); return out
    def seq(self, l):
        l = [x for x in l if x != 'SSkip']
        if not l: return 'SSkip'
        r = l[-1]
        for x in reversed(l[:-1]): r = f'SSeq {par(x)}\n{par(r)}'
        return r
    def block(self):
        self.eat('{'); self.scopes.append(set()); l = []
        while not self.at('}'): l += self.stmt()
        self.eat('}'); self.scopes.pop(); return l
    def sub(self):
        self.scopes.append(set()); l = self.stmt(); self.scopes.pop(); return self.seq(l)
    def exprstmt(self):
        e = self.expr()
        return f'SExpr {par(e[1] if isinstance(e, tuple) else e)}'
    def stmt(self):
        t = self.pk()
        if self.at('{'): return [self.seq(self.block())]
        if self.at(';'): self.nx(); return []
        if t[1] == 'asm': self.nx(); self.skip_parens(); self.eat(';'); return []
        if t[1] == 'if':
            self.nx(); self.eat('('); c = self.expr(); self.eat(')'); a = self.sub(); b = 'SSkip'
            if self.at('else'): self.nx(); b = self.sub()
            return [f'SIf {par(c)}\n{par(a)}\n{par(b)}']
        if t[1] == 'while':
            self.nx(); self.eat('('); c = self.expr(); self.eat(')'); b = self.sub()
            return [f'SLoop {par(c)} SSkip\n{par(b)}']
        if t[1] == 'for':
            self.nx(); self.eat('('); self.scopes.append(set())
            if self.is_type(): init = self.decl()
            elif self.at(';'): self.nx(); init = []
            else: init = [self.exprstmt()]; self.eat(';')
            c = 'EInt 1' if self.at(';') else self.expr(); self.eat(';')
            s = 'SSkip' if self.at(')') else self.exprstmt(); self.eat(')')
            b = self.sub(); self.scopes.pop()
            return init + [f'SLoop {par(c)} {par(s)}\n{par(b)}']
        if t[1] == 'return':
            self.nx()
            if self.at(';'): self.nx(); return ['SReturn None']
            e = self.expr(); self.eat(';'); return [f'SReturn (Some {par(e)})']
        if t[1] == 'break': self.nx(); self.eat(';'); return ['SBreak']
        if t[1] == 'continue': self.nx(); self.eat(';'); return ['SContinue']
        if t[1] in ('do', 'goto', 'switch'): self.err('unsupported')
        if self.is_type(): return self.decl()
        s = self.exprstmt(); self.eat(';'); return [s]
    # top level
    def unit(self):
        self.locals = {}; self.tags = {}
        # struct tags that are given a typedef name
        for k in range(len(self.toks)):
            if self.toks[k][1] == 'struct' and k + 2 < len(self.toks) and self.toks[k+2][1] == '{':
                d, j = 0, k + 2
                while True:
                    x = self.toks[j][1]; d += (x == '{') - (x == '}'); j += 1
                    if d == 0: break
                if self.toks[j][0] == 'id': self.tags[self.toks[k+1][1]] = self.toks[j][1]
        while self.pk()[0] != 'eof':
            self.top()
    def top(self):
        if self.at(';'): self.nx(); return
        start = self.pk(); i0 = self.i
        if self.at('typedef'):
            self.nx(); b = self.base_type()
            if isinstance(b, tuple):
                n = self.nx()[1]; self.structs.append((n, b[2])); self.types[n] = f'Tstruct "{n}"'; self.eat(';'); return
            n, t = self.declarator(b); self.types[n] = t; self.eat(';'); return
        b = self.base_type()
        if self.at(';'): self.nx(); return
        n, t = self.declarator(b)
        if self.at('('):
            self.nx(); ps = []; bad = None
            while not self.at(')'):
                if self.at('...'): self.nx(); ps.append((VARARGS, 'Tptr Tvoid')); continue
                pb = self.base_type(); pn, pt = self.declarator(pb)
                if not (pt == 'Tvoid' and pn is None): ps.append((pn, pt))
                if self.at(','): self.nx()
            self.eat(')')
            if self.at(';'): self.nx(); return
            # a function definition
            j = self.i
            try:
                if bad or any('DOUBLE' in p[1] for p in ps): raise Err(bad or 'double')
                self.locals = dict(ps); self.order = []; self.addr = set(); self.scopes = [set(x for x, _ in ps)]
                body = self.seq(self.block())
                if any(x in self.addr for x, _ in ps): raise Err(f'{n}: address of a parameter')
                regs = [(x, self.locals[x]) for x in self.order if x not in self.addr]
                mems = [(x, self.locals[x]) for x in self.order if x in self.addr]
                # address taken only after a use as a register is fine: kinds are decided at the end
                self.funs.append((n, t, ps, regs, mems, body, start[2], start[3], self.toks[self.i-1][3]))
            except Err as e:
                if n not in SKIP.get(self.name, ()): raise
                self.i = j; d = 0
                while True:
                    x = self.nx()[1]; d += (x == '{') - (x == '}')
                    if d == 0: break
                self.skipped.append((n, str(e)))
            self.locals = {}
            return
        # file scope variable
        init = None
        if self.at('='):
            self.nx()
            if self.at('{'):                             # an array of strings
                self.nx(); l = []
                while not self.at('}'):
                    x = self.nx()
                    if x[0] != 'str': raise Err('global initialiser')
                    l.append(self.string(x[1][1:-1]))
                    if self.at(','): self.nx()
                self.eat('}'); t = t.replace('UNSIZED', str(len(l))); self.inits.append((n, l))
            else:
                init = self.nx()[1]
                if init != '0': raise Err('global initialiser')
        if 'UNSIZED' in t: raise Err('array size')
        self.eat(';'); self.globals.append((n, t))

SKIP = {'mu_jems.c': {'mu_jems_number', 'mu_jems_key_number'}}

def indent(s):
    out, d = [], 0
    for l in s.split('\n'):
        out.append('  ' * (1 + min(d, 12)) + l)
        d += l.count('(') - l.count(')')
    return '\n'.join(out)

def emit(mod, units, imports=()):
    us = []
    for c in units:
        u = Unit(c); u.unit(); us.append(u)
    params = sorted({SYMBOLIC[x] for u in us for t in u.toks if t[2].endswith('.c') and t[1] in SYMBOLIC for x in [t[1]]},
                    key=list(SYMBOLIC.values()).index)
    o = []
    o.append(f'(** * The text of {", ".join("mulib/"+c for c in units)}, translated by tools/c2v.py: do not edit.\n'
             '    Each definition names the lines it translates; the meaning of the syntax is in CLang.v. *)')
    o.append('From Verif Require Import CLang.\nOpen Scope string_scope.\nOpen Scope Z_scope.\n')
    if params:
        o.append('Section config.\n(** mulib/mu_platform.h: sizes that a project may choose *)\nContext (' + ' '.join(params) + ' : Z).\n')
    structs, consts, globs, names = [], [], [], []
    for u in us:
        for s in u.structs:
            if s not in structs:
                if s[0] in dict(structs): raise Err('struct clash ' + s[0])
                structs.append(s)
        for c in u.consts:
            if c not in consts: consts.append(c)
        for g in u.globals: globs.append((g, u.name))
    for k, v in SYMBOLIC.items():
        if v in params: consts.append((k, v))
    for u in us:
        for (n, t, ps, regs, mems, body, f, l1, l2) in u.funs:
            if n in names: raise Err('function clash ' + n)
            names.append(n)
            pl = lambda l: '[' + '; '.join(f'({q(x)}, {ty})' for x, ty in l) + ']'
            o.append(f'(** mulib/{f}:{l1}' + (f'-{l2}' if l2 != l1 else '') + ' *)')
            o.append(f'Definition src_{n} : fdef := MkF {q(n)} {par(t)}\n  {pl(ps)}\n  {pl(regs)} {pl(mems)}\n{indent(par(body))}.\n')
        for n, why in u.skipped: o.append(f'(** left out: {n} ({why.split(": ")[-1].split(" at ")[0]}) *)\n')
    used = '\n'.join(o)
    def srcof(s): return s
    o.append('(** struct types' + (' (mulib/*.h, *.c)') + ' *)')
    o.append(f'Definition {mod}_structs : list (string * list (list (string * ty))) :=\n  [' + ';\n   '.join(
        f'({q(n)}, [' + '; '.join('[' + '; '.join(f'({q(x)}, {ty})' for x, ty in alt) + ']' for alt in ms) + '])' for n, ms in structs) + '].')
    o.append(f'Definition {mod}_consts : list (string * Z) :=\n  [' + '; '.join(f'({q(n)}, {v if isinstance(v, str) else z(v)})' for n, v in consts) + '].')
    gl = [(n, t) for (n, t), _ in globs]
    o.append('(** file scope variables: their types and the objects they are *)')
    o.append(f'Definition {mod}_globals : list (string * (ty * nat)) :=\n  [' + '; '.join(f'({q(n)}, ({t}, {k}%nat))' for k, (n, t) in enumerate(gl)) + '].')
    for u in us:
        for n, codes in u.strings:
            o.append(f'Definition lit_{n} : list Z := [{"; ".join(map(str, codes))}].')
        for n, l in u.inits:
            o.append(f'Definition init_{n} : list nat := [' + '; '.join(f'{[g[0] for g in gl].index(x)}%nat' for x in l) + '].')
    o.append(f'Definition {mod} : cprog := MkProg {mod}_structs {mod}_consts {mod}_globals\n  [' + '; '.join('src_' + n for n in names) + '].')
    if params: o.append('End config.')
    return '\n'.join(o) + '\n'

PROGS = [('SrcQueue', 'queue_prog', ['mu_queue.c']),
         ('SrcArray', 'array_prog', ['mu_array.c']),
         ('SrcSpsc', 'spsc_prog', ['mu_spsc.c']),
         ('SrcBisync', 'bisync_prog', ['mu_bisync.c']),
         ('SrcMqueue', 'mqueue_prog', ['mu_mqueue.c', 'mu_task.c']),
         ('SrcSched', 'sched_prog', ['mu_sched.c', 'mu_task.c', 'mu_queue.c', 'mu_spsc.c']),
         ('SrcBvec', 'bvec_prog', ['mu_bvec.c', 'mu_bbuf.c']),
         ('SrcJems', 'jems_prog', ['mu_jems.c']),
         ('SrcLog', 'log_prog', ['mu_log.c'])]

if __name__ == '__main__':
    only = sys.argv[3:] 
    for f, mod, units in PROGS:
        if only and f not in only: continue
        s = emit(mod, units)
        open(os.path.join(OUT, f + '.v'), 'w').write(s)
        print(f, len(s.splitlines()), 'lines')
