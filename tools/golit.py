"""Reads the tables of literals of the Go unit tests in /repo (composite literals, constants, calls)."""
import re

TOK = re.compile(r'''
  (?P<ws>[ \t\r]+|//[^\n]*|/\*.*?\*/)
 |(?P<nl>\n)
 |(?P<num>0[xX][0-9a-fA-F_]+|0[bB][01_]+|\d[\d_]*\.\d+(?:e[+-]?\d+)?|\d[\d_]*(?:e[+-]?\d+)?)
 |(?P<id>[A-Za-z_]\w*)
 |(?P<str>"(?:\\.|[^"\\])*"|`[^`]*`)
 |(?P<chr>'(?:\\.|[^'\\])')
 |(?P<op><<|>>|\.\.\.|:=|==|!=|&&|\|\||[-+*/%&|^(){}\[\],:.;=<>!])
''', re.X | re.S)


class Lit:
    """A composite literal: type as text (None when elided) and its (key, value) elements."""
    def __init__(self, ty, els):
        self.ty, self.els = ty, els

    def get(self, k, d=None):
        for a, b in self.els:
            if a == k:
                return b
        return d

    def vals(self):
        return [b for _, b in self.els]

    def __repr__(self):
        return '%s{%s}' % (self.ty, ', '.join(('%s: ' % (a,) if a else '') + repr(b) for a, b in self.els))


class Call:
    def __init__(self, f, args):
        self.f, self.args = f, args

    def __repr__(self):
        return '%s(%s)' % (self.f, ', '.join(map(repr, self.args)))


def tokens(src):
    out, i = [], 0
    while i < len(src):
        m = TOK.match(src, i)
        if not m:
            raise ValueError('token at %r' % src[i:i + 40])
        i = m.end()
        if m.lastgroup not in ('ws', 'nl'):
            out.append((m.lastgroup, m.group()))
    return out


class P:
    def __init__(self, src, env=None):
        self.t = tokens(src)
        self.i = 0
        self.env = env or {}

    def peek(self, k=0):
        return self.t[self.i + k][1] if self.i + k < len(self.t) else None

    def kind(self):
        return self.t[self.i][0] if self.i < len(self.t) else None

    def eat(self, x=None):
        k, v = self.t[self.i]
        if x is not None and v != x:
            raise ValueError('expected %s, got %s near %s' % (x, v, self.t[max(0, self.i - 8):self.i + 5]))
        self.i += 1
        return v

    def type(self):
        if self.peek() == '[':
            self.eat('[')
            n = ''
            while self.peek() != ']':
                n += self.eat()
            self.eat(']')
            return '[%s]%s' % (n, self.type())
        if self.peek() == '*':
            self.eat()
            return '*' + self.type()
        if self.peek() == 'map':
            self.eat()
            self.eat('[')
            k = self.type()
            self.eat(']')
            return 'map[%s]%s' % (k, self.type())
        if self.peek() == 'struct':
            self.eat()
            self.eat('{')
            fs = []
            while self.peek() != '}':
                ns = [self.eat()]
                while self.peek() == ',':
                    self.eat()
                    ns.append(self.eat())
                self.type()
                fs += ns
            self.eat('}')
            return 'struct{%s}' % ','.join(fs)
        t = self.eat()
        while self.peek() == '.':
            self.eat()
            t += '.' + self.eat()
        return t

    def body(self, ty):
        self.eat('{')
        el = None
        m = re.match(r'\[[^\]]*\](.*)$', ty or '', re.S)
        if m:
            el = m.group(1)
        els = []
        while self.peek() != '}':
            key = None
            v = self.elem(el)
            if self.peek() == ':':
                self.eat()
                key = v
                v = self.elem(el)
            els.append((key, v))
            if self.peek() == ',':
                self.eat()
        self.eat('}')
        if ty and ty.startswith('struct{') and els and els[0][0] is None:
            names = ty[7:-1].split(',')
            els = [(n, v) for n, (_, v) in zip(names, els)]
        return Lit(ty, els)

    def elem(self, el):
        if self.peek() == '{':
            return self.body(el.lstrip('*') if el else None)
        return self.expr()

    def primary(self):
        k, p = self.kind(), self.peek()
        if k == 'num':
            self.eat()
            p = p.replace('_', '')
            if re.match(r'0[xXbB]', p):
                return int(p, 0)
            if re.match(r'\d+$', p):
                return int(p, 8) if len(p) > 1 and p[0] == '0' else int(p)
            return float(p)
        if k == 'str':
            self.eat()
            return p[1:-1] if p[0] == '`' else eval('b' + p).decode('latin1')
        if k == 'chr':
            self.eat()
            return ord(eval(p))
        if p == '(':
            self.eat()
            v = self.expr()
            self.eat(')')
            return self.post(v)
        if p in ('[', 'map', 'struct'):
            ty = self.type()
            if self.peek() == '(':
                self.eat()
                v = self.expr()
                self.eat(')')
                return self.post(v)
            return self.post(self.body(ty))
        name = self.eat()
        while self.peek() == '.':
            self.eat()
            name += '.' + self.eat()
        if self.peek() == '{' and (name[0].isupper() or '.' in name or name in ('sample', 'sequenceSample')):
            return self.post(self.body(name))
        if self.peek() == '(':
            self.eat()
            args = []
            while self.peek() != ')':
                args.append(self.type() if self.peek() == '[' and name == 'make' else self.expr())
                if self.peek() == '...':
                    self.eat()
                if self.peek() == ',':
                    self.eat()
            self.eat(')')
            return self.post(self.call(name, args))
        if name in ('true', 'false'):
            return name == 'true'
        if name == 'nil':
            return None
        if name in self.env:
            return self.post(self.env[name])
        return name

    def call(self, f, args):
        if f == 'bytes.Repeat':
            return Lit('[]byte', args[0].els * args[1])
        if f == 'append':
            els = list(args[0].els) if isinstance(args[0], Lit) else []
            for a in args[1:]:
                els += a.els if isinstance(a, Lit) and a.ty == '[]byte' and args[0].ty != '[][]byte' else [(None, a)]
            return Lit(args[0].ty, els)
        if f in ('uint8', 'uint16', 'uint32', 'uint64', 'int8', 'int16', 'int32', 'int64', 'int', 'byte', 'float64') \
           or f[0].isupper() and len(args) == 1 and not f.startswith(('New', 'Is')):
            return args[0]
        return Call(f, args)

    def post(self, v):
        return v

    def unary(self):
        p = self.peek()
        if p == '&':
            self.eat()
            return self.unary()
        if p == '-':
            self.eat()
            return -self.unary()
        return self.primary()

    def binary(self, ops, sub):
        v = sub()
        while self.peek() in ops:
            o = self.eat()
            w = sub()
            if isinstance(v, (int, float)) and isinstance(w, (int, float)):
                v = {'*': lambda: v * w, '/': lambda: v // w if isinstance(v, int) and isinstance(w, int) else v / w,
                     '<<': lambda: v << w, '>>': lambda: v >> w, '&': lambda: v & w,
                     '+': lambda: v + w, '-': lambda: v - w, '|': lambda: v | w}[o]()
            else:
                v = Call(o, [v, w])
        return v

    def expr(self):
        return self.binary(('+', '-', '|'), lambda: self.binary(('*', '/', '<<', '>>', '&'), self.unary))


def var(path, name, env=None):
    """The literal assigned to a variable in a file: `var name = literal` or `name := literal`."""
    src = open(path).read()
    m = re.search(r'(?:var\s+)?\b%s\s*:?=\s*' % re.escape(name), src)
    return P_prefix(src[m.end():], env)


def P_prefix(src, env=None):
    # cut at the balanced end of the first composite literal, in order not to tokenize the rest of the file
    p = P.__new__(P)
    p.env = env or {}
    p.i = 0
    out, i, depth, seen = [], 0, 0, False
    while i < len(src):
        m = TOK.match(src, i)
        i = m.end()
        if m.lastgroup == 'nl' and depth == 0 and seen:
            break
        if m.lastgroup in ('ws', 'nl'):
            continue
        out.append((m.lastgroup, m.group()))
        seen = True
        if m.group() in '({[':
            depth += 1
        if m.group() in ')}]':
            depth -= 1
    p.t = out
    return p.expr()


def bytes_of(l):
    if l is None:
        return []
    if isinstance(l, str):
        return [ord(c) for c in l]
    return [x for x in l.vals()]
