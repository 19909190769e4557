#!/usr/bin/env python3
"""Translate the bodies of UnmarshalBinary, MarshalTo and MarshalLen of the XxxFields types (/repo/ie/*.go)
into the syntax of Go.v, one statement at a time. Every line of the source must match a rule; the script stops otherwise.
Usage: gengo.py > GoFields.v"""
import re, sys, glob

ORD = {'1st': 1, '2nd': 2, '3rd': 3, '4th': 4, '5th': 5, '6th': 6, '7th': 7, '8th': 8}
TYPES = {'uint8': 'u8', 'uint16': 'u16', 'uint32': 'u32', 'uint64': 'u64', 'net.IP': 'bytes', 'net.HardwareAddr': 'bytes',
         '[]byte': 'bytes', 'string': 'string', '[]string': 'list', '[]net.HardwareAddr': 'list', 'time.Time': 'time'}
WIDTH = {'u8': 8, 'u16': 16, 'u32': 32, 'u64': 64}

src, where = {}, {}
for fn in sorted(glob.glob('/repo/ie/*.go')):
    if fn.endswith('_test.go'): continue
    lines = open(fn).read().split('\n')
    i = 0
    while i < len(lines):
        m = re.match(r'(func \(f \*(\w+Fields)\) (\w+)\(.*\{|type (\w+Fields) struct \{)$', lines[i])
        if m:
            j = i
            while lines[j] != '}': j += 1
            key = (m.group(2), m.group(3)) if m.group(2) else (m.group(4), 'type')
            src[key] = lines[i + 1:j]
            where[key] = 'ie/%s:%d-%d' % (fn.split('/')[-1], i + 1, j + 1)
            i = j
        i += 1

def strip(line): return re.sub(r'\s*//.*$', '', line).strip()

def members(t):
    r = {}
    for line in src[t, 'type']:
        line = strip(line)
        if not line: continue
        names, ty = re.match(r'([\w, ]+?)\s+(\S+)$', line).groups()
        for n in names.split(','): r[n.strip()] = TYPES[ty]
    return r

TOK = re.compile(r'\s*(0x[0-9a-f]+|\d+|"[^"]*"|[A-Za-z_]\w*|\|\||&&|<<|>>|!=|==|<=|<|\[\]byte|[-+*/&|!()\[\]:.,])')
def tokens(s):
    r, i = [], 0
    while i < len(s):
        m = TOK.match(s, i)
        if not m: sys.exit('token: ' + s[i:])
        r.append(m.group(1)); i = m.end()
    return r

class P:
    """expressions; every result is (term, type), a constant has type 'const' and term the number"""
    LV = [['||'], ['&&'], ['!=', '==', '<=', '<'], ['+', '-', '|'], ['*', '/', '&', '<<', '>>']]
    def __init__(self, T, mem, scope, s):
        self.T, self.mem, self.scope, self.t, self.i, self.s = T, mem, scope, tokens(s), 0, s
    def peek(self): return self.t[self.i] if self.i < len(self.t) else None
    def eat(self, x=None):
        y = self.peek()
        if x is not None and x != y: sys.exit('%s: expected %s, found %s in %s' % (self.T, x, y, self.s))
        self.i += 1; return y
    def all(self):
        r = self.level(0)
        if self.peek() is not None: sys.exit('%s: left over in %s' % (self.T, self.s))
        return r
    def level(self, n):
        if n == len(self.LV): return self.unary()
        a = self.level(n + 1)
        while self.peek() in self.LV[n]:
            op = self.eat(); a = self.binary(op, a, self.level(n + 1))
        return a
    def as_(self, e, ty):
        """a constant takes the type of the other operand"""
        if e[1] != 'const': return e
        if ty in ('int', 'const'): return '(EInt %d)' % e[0], 'int'
        return '(ENum %d)' % e[0], ty
    def binary(self, op, a, b):
        if op == '||': return '(COr %s %s)' % (a[0], b[0]), self.want((a, b), 'bool')
        if op == '&&': return '(CAnd %s %s)' % (a[0], b[0]), self.want((a, b), 'bool')
        if op in ('<<', '>>'):
            if b[1] != 'const' or a[1] not in WIDTH: self.bad()
            if op == '>>': return '(EShr %s %d)' % (a[0], b[0]), a[1]
            return '(EShl %d %s %d)' % (WIDTH[a[1]], a[0], b[0]), a[1]
        if op == '!=' and b[0] == 'ENil': return '(CNotNil %s)' % a[0], self.want((a,), 'bytes') and 'bool'
        if op == '==' and b[0] == '""': return '(CEmpty %s)' % a[0], self.want((a,), 'string') and 'bool'
        if a[1] == 'const' and b[1] == 'const' and op == '+': return self.binary(op, self.as_(a, 'int'), self.as_(b, 'int'))
        a, b = self.as_(a, b[1]), self.as_(b, a[1])
        if a[1] != b[1]: self.bad()
        if op in ('<', '<='): return '(%s %s %s)' % ({'<': 'CLt', '<=': 'CLe'}[op], a[0], b[0]), self.want((a, b), 'int') and 'bool'
        if op == '!=': 
            if a[1] not in WIDTH: self.bad()
            return '(CNe %s %s)' % (a[0], b[0]), 'bool'
        if op in ('+', '-', '*'): return '(%s %s %s)' % ({'+': 'EAdd', '-': 'ESub', '*': 'EMul'}[op], a[0], b[0]), self.want((a, b), 'int')
        if op in ('&', '|'):
            if a[1] not in WIDTH: self.bad()
            return '(%s %s %s)' % ({'&': 'EAnd', '|': 'EOr'}[op], a[0], b[0]), a[1]
        self.bad()
    def bad(self): sys.exit('%s: no rule for %s' % (self.T, self.s))
    def want(self, es, ty):
        for e in es:
            if e[1] != ty: self.bad()
        return ty
    def unary(self):
        if self.peek() == '!':
            self.eat(); a = self.unary(); return '(CNot %s)' % a[0], self.want((a,), 'bool')
        return self.postfix()
    def args(self):
        self.eat('('); r = []
        while self.peek() != ')':
            r.append(self.level(0))
            if self.peek() == ',': self.eat()
        self.eat(')'); return r
    def postfix(self):
        e = self.primary()
        while True:
            if self.peek() == '[':
                self.eat()
                lo = None if self.peek() == ':' else self.as_(self.level(0), 'int')
                if self.peek() == ']':
                    self.eat(); self.want((e,), 'bytes'); self.want((lo,), 'int')
                    e = '(EIdx %s %s)' % (e[0], lo[0]), 'u8'; continue
                self.eat(':'); lo = lo or ('(EInt 0)', 'int')
                self.want((e,), 'bytes'); self.want((lo,), 'int')
                if self.peek() == ']':
                    self.eat(); e = '(EFrom %s %s)' % (e[0], lo[0]), 'bytes'; continue
                hi = self.as_(self.level(0), 'int'); self.want((hi,), 'int'); self.eat(']')
                e = '(ESlice %s %s %s)' % (e[0], lo[0], hi[0]), 'bytes'; continue
            if self.peek() == '.' and self.t[self.i + 1] in ('To4', 'To16'):
                self.eat(); n = self.eat(); self.eat('('); self.eat(')'); self.want((e,), 'bytes')
                e = '(E%s %s)' % (n, e[0]), 'bytes'; continue
            return e
    def dotted(self):
        r = self.eat()
        while self.peek() == '.' and self.t[self.i + 1] not in ('To4', 'To16', 'Sub'):
            self.eat(); r += '.' + self.eat()
        return r
    def primary(self):
        t = self.peek()
        if t == '(':
            self.eat(); e = self.level(0); self.eat(')'); return e
        if re.match(r'\d', t): return int(self.eat(), 0), 'const'
        if t[0] == '"': return self.eat(), 'literal'
        if t == '[]byte':
            self.eat(); (a,) = self.args(); self.want((a,), 'string'); return '(EBytes %s)' % a[0], 'bytes'
        n = self.dotted()
        if n == 'nil': return 'ENil', 'nil'
        if self.peek() != '(':
            if n.startswith('f.'): return '(EFld "%s")' % n[2:], self.mem[n[2:]]
            if n not in self.scope: self.bad()
            if n == 'b': return 'EBuf', 'bytes'
            return '(EVar "%s")' % self.scope[n][0], self.scope[n][1]
        m = re.match(r'has(\w+)Bit$', n)
        if m:
            (a,) = self.args(); self.want((a,), 'u8'); return '(CHas %d %s)' % (ORD[m.group(1)], a[0]), 'bool'
        if n.startswith('f.'):
            self.eat('('); self.eat(')'); body = [strip(x) for x in src[self.T, n[2:]]]
            return has_method(self.T, self.mem, n[2:], [x for x in body if x])
        if n == 'uint64' and ''.join(self.t[self.i:]).startswith('(f.') and '.Sub(' in ''.join(self.t[self.i:]):
            m = re.match(r'\(f\.(\w+)\.Sub\(time\.Date\(1900,time\.January,1,0,0,0,0,time\.UTC\)\)\)/1000000000$', ''.join(self.t[self.i:-1]) if self.t[-1] == ')' and False else ''.join(self.t[self.i:]))
            if not m or self.mem[m.group(1)] != 'time': self.bad()
            self.i = len(self.t); return '(ESince (EFld "%s"))' % m.group(1), 'u64'
        if n == 'time.Unix':
            m = re.match(r'\(int64\((.*)-2208988800\),0\)$', ''.join(self.t[self.i:]))
            if not m: self.bad()
            a = P(self.T, self.mem, self.scope, m.group(1)).all(); self.want((a,), 'u64')
            self.i = len(self.t); return '(ENtp %s)' % a[0], 'time'
        if n == 'make':
            s = ''.join(self.t[self.i:]); m = re.match(r'\((?:\[\]byte|net\.HardwareAddr),(\d+)\)$', s)
            if not m: self.bad()
            self.i = len(self.t); return '(EMake %s)' % m.group(1), 'bytes'
        a = self.args()
        if n == 'len' and len(a) == 1: return '(ELen %s)' % a[0][0], self.want(a, 'bytes') and 'int'
        if n == 'int' and a[0][1] in WIDTH: return '(EToInt %s)' % a[0][0], 'int'
        if n in TYPES and TYPES[n] in WIDTH and (a[0][1] in WIDTH or a[0][1] == 'int'): return '(EU %d %s)' % (WIDTH[TYPES[n]], a[0][0]), TYPES[n]
        if n == 'string': return '(EStr %s)' % a[0][0], self.want(a, 'bytes') and 'string'
        if n in ('net.IP', 'net.HardwareAddr'): return '(EBytes %s)' % a[0][0], self.want(a, 'bytes')
        m = re.match(r'binary\.BigEndian\.Uint(16|32|64)$', n)
        if m: return '(EBE %d %s)' % (int(m.group(1)) // 8, a[0][0]), self.want(a, 'bytes') and 'u' + m.group(1)
        if n == 'append' and len(a) == 2 and a[0][1] == 'list': return '(EApp %s %s)' % (a[0][0], a[1][0]), 'list'
        if n == 'utils.SwappedBytesToStr' and len(a) == 2 and self.s.rstrip().endswith(', true)'): return '(EFromBcd %s)' % a[0][0], 'string'
        if n == 'utils.StrToSwappedBytes' and a[1][0] == '"f"': return '(EToBcd %s)' % a[0][0], self.want(a[:1], 'string') and 'bytes'
        if n == 'utils.EncodePLMN': return '(EToPlmn %s %s)' % (a[0][0], a[1][0]), self.want(a, 'string') and 'bytes'
        self.bad()

def has_method(T, mem, name, body):
    """the HasXxx methods: return <condition>, or the forms of Outer Header Creation"""
    m = re.match(r'return (.*)$', body[-1])
    scope = {'true': ('true', 'bool')}
    if len(body) == 1:
        return P(T, mem, scope, m.group(1)).all()
    if len(body) == 2:
        m2 = re.match(r'(\w+) := (.*)$', body[0])
        if m2:  # a local of a single use each: substitute
            e = P(T, mem, scope, m2.group(2)).all()
            return P2(T, mem, {m2.group(1): e}, m.group(1)).all()
    sys.exit('%s.%s: %r' % (T, name, body))
class P2(P):
    def primary(self):
        if self.peek() in self.scope: return self.scope[self.eat()]
        return P.primary(self)

BOOLS = {'true': ('true', 'bool')}
class Body:
    def __init__(self, T, m):
        self.T, self.m, self.mem = T, m, members(T)
        self.lines = [x for x in (strip(l) for l in src[T, m]) if x]
        self.i = 0
    def e(self, scope, s): return P(self.T, self.mem, dict(scope, **BOOLS), s).all()
    def ei(self, scope, s):
        p = P(self.T, self.mem, scope, s); r = p.as_(p.all(), 'int'); return r
    def block(self, scope, inner=False):
        """statements up to the closing brace; a declaration that hides another variable gets a new name"""
        outer, scope = scope, dict(scope); r = []
        while self.i < len(self.lines) and self.lines[self.i] != '}':
            r.append(self.one(scope))
        # a scope of its own where variables are declared, unless the block leaves the method
        if inner and scope != outer and not r[-1].startswith('(SRet'): return '(SBlock %s)' % seq(r)
        return seq(r)
    def declare(self, scope, x, ty):
        y, n, seen = x, 1, [v[0] for v in scope.values()]
        while y in seen: n += 1; y = x + str(n)
        scope[x] = (y, ty); return y
    def body(self, scope):
        r = self.block(scope, True)
        if self.lines[self.i] != '}': sys.exit('brace')
        self.i += 1; return r
    def typed(self, e, ty):
        if e[1] != ty: sys.exit('%s.%s: type %s, wanted %s: %s' % (self.T, self.m, e[1], ty, e[0]))
        return e[0]
    def errcheck(self):
        if self.lines[self.i:self.i + 3] != ['if err != nil {', 'return err', '}']: sys.exit('error check')
        self.i += 3
    def one(self, scope):
        s = self.lines[self.i]; self.i += 1
        def m(p): return re.match(p + '$', s)
        if s == 'return io.ErrUnexpectedEOF': return 'SEof'
        if s == 'return nil': return '(SRet ENil)'
        if s == 'break': return 'SBreak'
        g = m(r'return (.*)')
        if g: return '(SRet %s)' % self.typed(self.ei(scope, g.group(1)), 'int')
        g = m(r'if (.*) \{')
        if g:
            c = self.typed(self.e(scope, g.group(1)), 'bool'); return '(SIf %s\n%s)' % (c, self.body(scope))
        if s == 'for {': return '(SLoop\n%s)' % self.body(scope)
        g = m(r'for (\w+) := 0; \1 <= (.*); \1\+\+ \{')
        if g:
            sc = dict(scope); x = self.declare(sc, g.group(1), 'int'); hi = self.typed(self.e(sc, g.group(2)), 'int')
            b = self.body(sc)
            return '(SBlock %s)' % seq(['(SLet "%s" (EInt 0))' % x, '(SLoop\n%s)' % seq(['(SIf (CNot (CLe (EVar "%s") %s)) SBreak)' % (x, hi), b, '(SLet "%s" (EAdd (EVar "%s") (EInt 1)))' % (x, x)])])
        g = m(r'for _, (\w+) := range f\.(\w+) \{')
        if g:
            if self.mem[g.group(2)] != 'list': sys.exit('range')
            # the elements are strings or hardware addresses; both are only measured and copied
            sc = dict(scope); x = self.declare(sc, g.group(1), 'string'); return '(SBlock (SRange "%s" "%s"\n%s))' % (x, g.group(2), self.body(sc))
        if s == 'var err error':
            g = re.match(r'f\.(\w+), f\.(\w+), err = utils\.DecodePLMN\((.*)\)$', self.lines[self.i]); self.i += 1
            a = self.typed(self.e(scope, g.group(3)), 'bytes'); self.errcheck(); return '(SPlmn "%s" "%s" %s)' % (g.group(1), g.group(2), a)
        g = m(r'(\w+), err := (utils\..*)')
        if g:
            a = self.e(scope, g.group(2)); self.errcheck(); return '(SLet "%s" %s)' % (self.declare(scope, g.group(1), a[1]), a[0])
        g = m(r'(\w+) := (.*)')
        if g:
            a = self.ei(scope, g.group(2)); return '(SLet "%s" %s)' % (self.declare(scope, g.group(1), a[1]), a[0])
        g = m(r'(\w+) \+= (.*)')
        if g: x = scope[g.group(1)][0]; return '(SLet "%s" (EAdd (EVar "%s") %s))' % (x, x, self.typed(self.ei(scope, g.group(2)), 'int'))
        g = m(r'(\w+)(\+\+|--)')
        if g: x = scope[g.group(1)][0]; return '(SLet "%s" (%s (EVar "%s") (EInt 1)))' % (x, 'EAdd' if g.group(2) == '++' else 'ESub', x)
        g = m(r'f\.(\w+) = (.*)')
        if g: return '(SSet "%s" %s)' % (g.group(1), self.typed(self.e(scope, g.group(2)), self.mem[g.group(1)]))
        g = m(r'b\[([^:]*)\] = (.*)')
        if g: return '(SPutB %s %s)' % (self.typed(self.ei(scope, g.group(1)), 'int'), self.typed(self.e(scope, g.group(2)), 'u8'))
        g = m(r'binary\.BigEndian\.PutUint(16|32|64)\(b\[([^:]*):([^\]]*)\], (.*)\)')
        if g: return '(SPut %d %s %s %s)' % (int(g.group(1)) // 8, self.typed(self.ei(scope, g.group(2)), 'int'), self.typed(self.ei(scope, g.group(3)), 'int'), self.typed(self.e(scope, g.group(4)), 'u' + g.group(1)))
        g = m(r'binary\.BigEndian\.PutUint(16|32|64)\((\w+), (.*)\)')
        if g:
            if scope[g.group(2)][1] != 'bytes': sys.exit('put')
            return '(SPutV %d "%s" %s)' % (int(g.group(1)) // 8, scope[g.group(2)][0], self.typed(self.e(scope, g.group(3)), 'u' + g.group(1)))
        g = m(r'copy\(b\[([^:]*):([^\]]*)\], (.*)\)')
        if g:
            a = self.e(scope, g.group(3))
            if a[1] not in ('bytes', 'string'): sys.exit('copy')
            return '(SCopyB %s %s %s)' % (self.typed(self.ei(scope, g.group(1)), 'int'), self.typed(self.ei(scope, g.group(2)), 'int'), a[0])
        g = m(r'copy\(f\.(\w+), (.*)\)')
        if g:
            if self.mem[g.group(1)] != 'bytes': sys.exit('copy')
            return '(SCopyF "%s" %s)' % (g.group(1), self.typed(self.e(scope, g.group(2)), 'bytes'))
        sys.exit('%s.%s: no rule for: %s' % (self.T, self.m, s))

def seq(l):
    if not l: return 'SSkip'
    return l[0] if len(l) == 1 else '(SSeq %s\n%s)' % (l[0], seq(l[1:]))

def translate(T, m):
    b = Body(T, m)
    scope = {} if m == 'MarshalLen' else {'b': ('b', 'bytes')}
    r = b.block(scope)
    if b.i != len(b.lines): sys.exit('%s.%s: left over' % (T, m))
    return r

def main():
    ts = sorted(t for t, m in src if m == 'UnmarshalBinary')
    print('(** Generated by tools/gengo.py from /repo/ie/*.go: the bodies of UnmarshalBinary, MarshalTo and MarshalLen of the XxxFields types.\n    The members of each struct are listed with their Go names; a variable that hides another gets a number. *)')
    print('From Coq Require Import String.\nFrom Verif Require Import Base Access Go.\nOpen Scope string_scope.\n')
    seen, name = {}, {}
    for t in ts:
        for m, p in (('UnmarshalBinary', 'un'), ('MarshalTo', 'to'), ('MarshalLen', 'len')):
            body = translate(t, m); k = t[:-6]
            print('(** %s *)' % where[t, m]); print('Definition go_%s_%s : stmt :=\n%s.' % (p, k, body)); print()
    for p, m in (('un', 'UnmarshalBinary'), ('to', 'MarshalTo'), ('len', 'MarshalLen')):
        print('(** (f *XxxFields) %s *)' % m); print('Definition go_%s (k : fkind) : stmt :=\n  match k with' % p)
        for t in ts: print('  | K_%s => go_%s_%s' % (t[:-6], p, t[:-6]))
        print('  end.')
if __name__ == '__main__': main()
