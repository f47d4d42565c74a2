#!/usr/bin/env python3
"""Write rocq/theories/Source/Tree.v: the syntax trees of the functions and constants of
/repo/src, as terms of Source/Syntax.v.

    python3 tools/gen_source.py [SRC [OUT]]

This is a parser and nothing more: no types are inferred and nothing is evaluated.  What it
does besides parsing:
  * names are made absolute (`fill_block` in sha256.rs becomes "sha256::fill_block"),
    following `use`;
  * `wrapping_sum!` is expanded as src/common.rs defines it;
  * a default method of a trait is written once for each implementation of the trait;
  * parentheses, comments, `pub`, `mut` of bindings and lifetimes are dropped.
Not in the tree: `#[cfg(test)]` items.
"""
import re, sys, os

SRC = sys.argv[1] if len(sys.argv) > 1 else '/repo/src'
OUT = sys.argv[2] if len(sys.argv) > 2 else os.path.join(
    os.path.dirname(os.path.abspath(__file__)), '..', 'rocq', 'theories', 'Source', 'Tree.v')
MODULES = ['sha256', 'hmac', 'pbkdf2', 'salsa20', 'scrypt', 'aes', 'pkcs7', 'aes_cbc']

# Element type of the vectors whose type rustc infers from later lines.
INFERRED = {('aes', 'expand_key', 'w'): 'u32', ('aes_cbc', 'write', 'padded_result'): 'u8'}
# Element type of the vectors written `vec![]`.
EMPTY = {('aes_cbc', 'write'): 'u8'}

TOK = re.compile(r'''
  (?P<ws>\s+|//[^\n]*|/\*.*?\*/)
 |(?P<str>"(?:[^"\\]|\\.)*")
 |(?P<life>'[a-z_]+\b(?!'))
 |(?P<num>0x[0-9a-fA-F_]+|[0-9][0-9_]*)
 |(?P<id>[A-Za-z_][A-Za-z0-9_]*)
 |(?P<op>\.\.=|<<=|>>=|\.\.|::|->|=>|==|!=|<=|>=|&&|\|\||<<|>>|\+=|-=|\*=|/=|%=|\^=|\|=|&=|[-+*/%^!&|=<>@.,;:#$?(){}\[\]])
''', re.X | re.S)

def lex(text):
    out, pos = [], 0
    while pos < len(text):
        m = TOK.match(text, pos)
        assert m, text[pos:pos + 40]
        k = m.lastgroup
        if k not in ('ws', 'life'):
            out.append((k, m.group(), text.count('\n', 0, pos) + 1))
        pos = m.end()
    return out

def q(s): return '"%s"' % s.replace('"', '""')
def lst(l): return '[' + '; '.join(l) + ']'

INTS = {'u8': 'U8', 'u32': 'U32', 'u64': 'U64', 'usize': 'Usize'}

class Parser:
    def __init__(self, mod, text, world):
        self.mod, self.t, self.i, self.w = mod, lex(text), 0, world
        self.scopes = []          # annotated types of local variables
        self.self_ty = None       # absolute name of Self
        self.fn = None
    # tokens
    def peek(self, k=0): return self.t[self.i + k][1] if self.i + k < len(self.t) else None
    def kind(self, k=0): return self.t[self.i + k][0] if self.i + k < len(self.t) else None
    def line(self): return self.t[min(self.i, len(self.t) - 1)][2]
    def next(self): self.i += 1; return self.t[self.i - 1][1]
    def eat(self, s):
        if self.peek() == s: self.i += 1; return True
        return False
    def need(self, s):
        assert self.eat(s), (self.mod, self.line(), 'expected', s, 'got', self.peek())
    def split(self, s):
        """Take [s] off the front of a longer operator token, such as `>>`."""
        if self.peek() == s: self.i += 1; return
        k, v, l = self.t[self.i]
        assert v.startswith(s), (self.mod, l, v, s)
        self.t[self.i] = (k, v[len(s):], l)
    def skip_group(self):
        pairs = {'(': ')', '[': ']', '{': '}'}
        close = pairs[self.next()]
        while self.peek() != close:
            if self.peek() in pairs: self.skip_group()
            else: self.next()
        self.need(close)
    # names
    def resolve(self, segs):
        """Absolute name of a path."""
        if segs[0] == 'Self': return '::'.join([self.self_ty] + segs[1:])
        uses = self.w['uses'][self.mod]
        if segs[0] in uses: return '::'.join([uses[segs[0]]] + segs[1:])
        if segs[0] in MODULES: return '::'.join(segs)
        return '::'.join([self.mod] + segs)
    # types
    def type(self):
        """('int',t) | ('seq',elem) | ('ref',mut,ty) | ('name',s,args) | ('unit',)"""
        if self.eat('&'):
            m = self.eat('mut'); return ('ref', m, self.type())
        if self.peek() == '&&':
            self.split('&'); return ('ref', False, self.type())
        if self.eat('['):
            e = self.type()
            if self.eat(';'): self.expr()
            self.need(']'); return ('seq', e)
        if self.eat('('):
            self.need(')'); return ('unit',)
        segs = [self.next()]
        while self.eat('::'): segs.append(self.next())
        args = []
        if self.peek() == '<':
            self.next()
            while True:
                args.append(self.type())
                if not self.eat(','): break
            self.split('>')
        name = '::'.join(segs)
        if name in INTS: return ('int', name)
        if name == 'Vec': return ('seq', args[0])
        alias = self.w['aliases'].get((self.mod, name))
        if alias: return alias
        return ('name', name, args)
    def coq_ty(self, t):
        if t is None: return 'TOther'
        if t[0] == 'int': return 'TInt ' + INTS[t[1]]
        if t[0] == 'seq': return 'TSeq (%s)' % self.coq_ty(t[1])
        if t[0] == 'ref': return self.coq_ty(t[2])
        return 'TOther'
    # patterns; the names they bind
    def pat(self):
        if self.eat('&'): return self.pat()
        if self.eat('('):
            ps = []
            while not self.eat(')'):
                ps.append(self.pat()); self.eat(',')
            return 'PTup ' + lst(ps)
        if self.kind() == 'num': return 'PLit %d' % int(self.next().replace('_', ''), 0)
        self.eat('mut')
        segs = [self.next()]
        while self.eat('::'): segs.append(self.next())
        if segs == ['_']: return 'PWild'
        if segs[-1][0].isupper():
            args = []
            if self.eat('('):
                while not self.eat(')'):
                    args.append(self.pat()); self.eat(',')
            return 'PCon %s %s' % (q(self.con(segs)), lst(args))
        assert len(segs) == 1
        return 'PVar ' + q(segs[0])
    def con(self, segs):
        if segs[-1] in ('Some', 'None', 'Ok', 'Err') and len(segs) == 1: return segs[0]
        return self.resolve(segs)
    # expressions
    def expr(self, structs=True, hint=None):
        return self.assign(structs, hint)
    OPS = {'+=': 'Add', '-=': 'Sub', '*=': 'Mul', '^=': 'Xor', '|=': 'Or', '&=': 'And', '>>=': 'Shr', '<<=': 'Shl'}
    def place_ty(self, e):
        """The declared type of a variable or of a field of self, if the text gives one."""
        if e[0] == 'var':
            for s in reversed(self.scopes):
                if e[1] in s: return s[e[1]]
        if e[0] == 'field' and e[1] == ('var', 'self'):
            return self.w['structs'][self.self_ty][e[2]]
        return None
    def assign(self, structs, hint):
        e = self.range(structs, hint)
        if self.eat('='):
            t = self.place_ty(e)
            r = self.expr(structs, t)
            return ('assign', e, t, r)
        if self.peek() in self.OPS:
            op = self.OPS[self.next()]
            return ('opassign', op, e, self.expr(structs))
        return e
    def range(self, structs, hint):
        a = self.binary(0, structs, hint)
        if self.peek() in ('..', '..='):
            incl = self.next() == '..='
            if self.peek() in (']', ')') : return ('range', a, None, incl)
            return ('range', a, self.binary(0, structs, hint), incl)
        return a
    LEVELS = [{'||': 'OrElse'}, {'&&': 'AndAlso'},
              {'==': 'Eq', '!=': 'Ne', '<': 'Lt', '<=': 'Le', '>': 'Gt', '>=': 'Ge'},
              {'|': 'Or'}, {'^': 'Xor'}, {'&': 'And'}, {'<<': 'Shl', '>>': 'Shr'},
              {'+': 'Add', '-': 'Sub'}, {'*': 'Mul', '/': 'Div', '%': 'Rem'}]
    def binary(self, lvl, structs, hint):
        if lvl == len(self.LEVELS): return self.cast(structs, hint)
        e = self.binary(lvl + 1, structs, hint)
        while self.peek() in self.LEVELS[lvl]:
            op = self.LEVELS[lvl][self.next()]
            e = ('bin', op, e, self.binary(lvl + 1, structs, None))
        return e
    def cast(self, structs, hint):
        e = self.unary(structs, hint)
        while self.eat('as'):
            e = ('cast', e, self.type()[1])
        return e
    def unary(self, structs, hint):
        if self.eat('!'): return ('not', self.unary(structs, None))
        if self.eat('*'): return ('deref', self.unary(structs, None))
        if self.peek() == '&&': raise AssertionError('&&')
        if self.eat('&'):
            if self.eat('mut'): return ('refmut', self.unary(structs, None))
            return ('ref', self.unary(structs, None))
        return self.postfix(structs, hint)
    def args(self, close=')'):
        out = []
        while not self.eat(close):
            out.append(self.expr()); self.eat(',')
        return out
    def postfix(self, structs, hint):
        e = self.atom(structs, hint)
        while True:
            if self.eat('?'): e = ('try', e)
            elif self.eat('['):
                if self.eat('..'):
                    e = ('slice', e, None, self.binary(0, True, None))
                else:
                    i = self.expr()
                    e = ('slice', e, i[1], i[2]) if i[0] == 'range' else ('index', e, i)
                    assert i[0] != 'range' or not i[3]
                self.need(']')
            elif self.peek() == '.' :
                self.next(); name = self.next()
                if self.peek() == '(':
                    self.next()
                    if name == 'map':
                        self.need('|'); p = self.pat(); self.need('|')
                        b = self.expr(); self.need(')')
                        e = ('map', e, p, b)
                    else: e = ('method', e, name, self.args())
                else: e = ('field', e, name)
            else: return e
    def atom(self, structs, hint):
        k, v = self.kind(), self.peek()
        if k == 'num': self.next(); return ('lit', int(v.replace('_', ''), 0))
        if k == 'str': self.next(); return ('str', v[1:-1])
        if self.eat('('):
            if self.eat(')'): return ('unit',)
            e = self.expr(); self.need(')'); return e
        if v == '{': return self.block()
        if self.eat('['):
            if self.eat(']'): return ('array', [])
            a = self.expr()
            if self.eat(';'):
                n = self.expr(); self.need(']'); return ('repeat', a, n)
            out = [a]
            while self.eat(','):
                if self.peek() == ']': break
                out.append(self.expr())
            self.need(']'); return ('array', out)
        if v == 'if':
            self.next(); c = self.expr(False); a = self.block(); b = ('unit',)
            if self.eat('else'):
                b = self.atom(True, None) if self.peek() == 'if' else self.block()
            return ('if', c, a, b)
        if v == 'match':
            self.next(); e = self.expr(False); self.need('{'); arms = []
            while not self.eat('}'):
                p = self.pat(); self.need('=>'); b = self.expr(); self.eat(',')
                arms.append((p, b))
            return ('match', e, arms)
        if v == 'while':
            self.next(); c = self.expr(False); return ('while', c, self.block())
        if v == 'for':
            self.next(); p = self.pat(); self.need('in'); e = self.expr(False)
            return ('for', p, e, self.block())
        if v == 'return':
            self.next()
            return ('return', self.expr() if self.peek() not in (';', '}', ',') else ('unit',))
        if v == 'continue': self.next(); return ('continue',)
        assert k == 'id', (self.mod, self.line(), v)
        segs = [self.next()]
        while self.eat('::'): segs.append(self.next())
        if self.peek() == '!' and self.peek(1) in ('(', '['):
            self.next(); close = {'(': ')', '[': ']'}[self.next()]
            if segs == ['wrapping_sum']:
                a = self.args(close)
                e = ('var', 'acc')
                for x in reversed(a[1:]):
                    e = ('seq', ('assign', ('var', 'acc'), None, ('method', ('var', 'acc'), 'wrapping_add', [x])), e)
                return ('let', 'PVar "acc"', None, a[0], e)
            if segs == ['write']:
                f, t, *a = self.args(close)
                assert t[0] == 'str'
                return ('write', f, t[1], a)
            assert segs == ['vec'], segs
            if self.eat(']'): return ('vecnew', ('int', EMPTY[self.mod, self.fn]))
            x = self.expr(); self.need(';'); n = self.expr(); self.need(']')
            return ('vecrep', x, n)
        name = '::'.join(segs)
        if self.peek() == '(':
            self.next(); a = self.args()
            if len(segs) == 2 and segs[0] in INTS and segs[1] == 'from': return ('from', INTS[segs[0]], a[0])
            if name == 'Vec::with_capacity':
                assert hint, (self.mod, self.line())
                return ('cap', hint[1], a[0])
            if name == 'std::cmp::min': return ('min', a[0], a[1])
            if segs[-1][0].isupper(): return ('con', self.con(segs), a)
            return ('call', self.resolve(segs), a)
        if structs and self.peek() == '{' and segs[-1][0].isupper() and not segs[-1].isupper() or \
           structs and self.peek() == '{' and segs == ['AES'] or structs and self.peek() == '{' and segs == ['SHA256']:
            s = self.self_ty if segs == ['Self'] else self.resolve(segs)
            self.need('{'); fs = []
            while not self.eat('}'):
                f = self.next(); ft = self.w['structs'][s][f]
                fs.append((f, ft, self.expr(True, ft) if self.eat(':') else ('var', f)))
                self.eat(',')
            return ('struct', s, fs)
        if len(segs) > 1 or name in ('None',): return ('con', self.con(segs), [])
        if name.isupper(): return ('cst', self.resolve(segs))
        return ('var', name)
    # blocks
    def block(self):
        self.need('{'); self.scopes.append({})
        e = self.stmts(); self.need('}'); self.scopes.pop()
        return e
    BLOCKISH = ('if', 'match', 'while', 'for')
    def stmts(self):
        if self.peek() == '}': return ('unit',)
        if self.eat('let'):
            p = self.pat(); t = None
            if self.eat(':'): t = self.type()
            if self.eat(';'):
                k = self.stmts(); return ('letu', p, k)
            name = p[6:-1] if p.startswith('PVar') else None
            if t is not None: self.scopes[-1][name] = t
            self.need('=')
            hint = t
            key = (self.mod, self.fn, name)
            if t is None and key in INFERRED: hint = ('seq', ('int', INFERRED[key]))
            e = self.expr(True, hint); self.need(';')
            k = self.stmts()
            return ('let', p, t, e, k)
        blockish = self.peek() in self.BLOCKISH
        e = self.atom(True, None) if blockish else self.expr()
        if self.eat(';'):
            k = self.stmts(); return ('seq', e, k)
        if self.peek() == '}': return e
        assert blockish, (self.mod, self.line(), self.peek())
        return ('seq', e, self.stmts())
    # items
    def attrs(self):
        test = False
        while self.peek() == '#':
            self.next(); j = self.i; self.skip_group()
            if [x[1] for x in self.t[j:self.i]] == ['[', 'cfg', '(', 'test', ')', ']']: test = True
        return test
    def params(self):
        self.need('('); ps = []
        while not self.eat(')'):
            if self.eat('&'):
                m = self.eat('mut'); self.need('self'); ps.append(('self', ('ref', m, ('name', 'Self', []))))
            else:
                self.eat('mut'); n = self.next(); self.need(':'); ps.append((n, self.type()))
            self.eat(',')
        return ps
    def function(self, prefix):
        line = self.line(); self.need('fn'); name = self.next(); ps = self.params(); r = ('unit',)
        if self.eat('->'): r = self.type()
        if self.eat(';'): return None
        self.fn = name; self.scopes = [dict(ps)]
        start = self.i
        body = self.block()
        return dict(name=prefix + '::' + name, short=name, line=line, end=self.t[self.i - 1][2], params=ps, ret=r,
                    body=body, span=(start, self.i))
    def items(self, scan):
        while self.i < len(self.t):
            test = self.attrs()
            self.eat('pub')
            v = self.peek()
            if v == 'use':
                self.next(); self.use()
            elif v in ('mod',):
                self.next(); self.next()
                if self.peek() == '{': self.skip_group()
                else: self.need(';')
            elif v == 'const':
                line = self.line()
                self.next(); n = self.next(); self.need(':'); t = self.type(); self.need('=')
                e = self.expr(); self.need(';')
                if not scan: self.w['consts'].append((self.mod + '::' + n, t, e, self.mod, line, self.t[self.i - 1][2], self))
            elif v == 'type':
                self.next(); n = self.next(); self.need('='); self.w['aliases'][(self.mod, n)] = self.type(); self.need(';')
            elif v == 'struct':
                self.next(); n = self.next(); self.need('{'); fs = {}
                while not self.eat('}'):
                    f = self.next(); self.need(':'); fs[f] = self.type(); self.eat(',')
                self.w['structs'][self.mod + '::' + n] = fs
            elif v == 'enum':
                self.next(); self.next(); self.skip_group()
            elif v == 'trait':
                self.next(); n = self.next(); start = self.i; self.skip_group()
                self.w['traits'][self.mod + '::' + n] = (self, start, self.i)
            elif v == 'impl':
                self.next(); n = self.next(); tr = None
                if self.eat('for'): tr, n = n, self.next()
                self.self_ty = self.mod + '::' + n
                if scan: self.skip_group()
                else:
                    self.methods()
                    if tr in ('AESSide',):
                        p, start, end = self.w['traits'][self.mod + '::' + tr]
                        save = self.i; self.i = start; self.methods(); self.i = save
            elif v == 'fn':
                if test or scan:
                    while self.peek() != '{': self.next()
                    self.skip_group()
                else: self.w['fns'].append((self.mod, self.function(self.mod), self))
            else: raise AssertionError((self.mod, self.line(), v))
    def methods(self):
        self.need('{')
        while not self.eat('}'):
            self.attrs(); self.eat('pub')
            f = self.function(self.self_ty)
            if f: self.w['fns'].append((self.mod, f, self))
    def use(self):
        segs = [self.next()]
        while self.eat('::'):
            if self.eat('{'):
                while not self.eat('}'):
                    n = self.next(); a = n
                    if self.eat('as'): a = self.next()
                    self.add_use(a, segs + [n]); self.eat(',')
                self.need(';'); return
            segs.append(self.next())
        a = segs[-1]
        if self.eat('as'): a = self.next()
        self.add_use(a, segs); self.need(';')
    def add_use(self, a, segs):
        if segs[0] == 'crate': self.w['uses'][self.mod][a] = '::'.join(segs[1:])

def coq(e, p):
    """The Coq term, in parentheses unless atomic."""
    k = e[0]
    c = lambda x: coq(x, p)
    def o(x): return 'None' if x is None else '(Some %s)' % c(x)
    if k == 'unit': return 'EUnit'
    if k == 'continue': return 'EContinue'
    if k == 'lit': s = 'ELit %d' % e[1]
    elif k == 'str': s = 'EStr ' + q(e[1])
    elif k == 'var': s = 'EVar ' + q(e[1])
    elif k == 'cst': s = 'ECst ' + q(e[1])
    elif k == 'bin': s = 'EBin %s %s %s' % (e[1], c(e[2]), c(e[3]))
    elif k == 'not': s = 'ENot ' + c(e[1])
    elif k == 'cast': s = 'ECast %s %s' % (INTS[e[2]], c(e[1]))
    elif k == 'from': s = 'EFrom %s %s' % (e[1], c(e[2]))
    elif k == 'min': s = 'EMin %s %s' % (c(e[1]), c(e[2]))
    elif k == 'field': s = 'EField %s %s' % (c(e[1]), q(e[2]))
    elif k == 'index': s = 'EIndex %s %s' % (c(e[1]), c(e[2]))
    elif k == 'slice': s = 'ESlice %s %s %s' % (c(e[1]), o(e[2]), o(e[3]))
    elif k == 'ref': s = 'ERef ' + c(e[1])
    elif k == 'refmut': s = 'ERefMut ' + c(e[1])
    elif k == 'deref': s = 'EDeref ' + c(e[1])
    elif k == 'array': s = 'EArray ' + lst([c(x) for x in e[1]])
    elif k == 'repeat': s = 'ERepeat %s %s' % (c(e[1]), c(e[2]))
    elif k == 'vecrep': s = 'EVecRepeat %s %s' % (c(e[1]), c(e[2]))
    elif k == 'vecnew': s = 'EVecNew (%s)' % p.coq_ty(e[1])
    elif k == 'cap': s = 'ECapacity (%s) %s' % (p.coq_ty(e[1]), c(e[2]))
    elif k == 'struct': s = 'EStruct %s %s' % (q(e[1]), lst(['(%s, %s, %s)' % (q(f), p.coq_ty(t), c(x)) for f, t, x in e[2]]))
    elif k == 'con': s = 'ECon %s %s' % (q(e[1]), lst([c(x) for x in e[2]]))
    elif k == 'call': s = 'ECall %s %s' % (q(e[1]), lst([c(x) for x in e[2]]))
    elif k == 'method': s = 'EMethod %s %s %s' % (c(e[1]), q(e[2]), lst([c(x) for x in e[3]]))
    elif k == 'write': s = 'EWrite %s %s %s' % (c(e[1]), q(e[2]), lst([c(x) for x in e[3]]))
    elif k == 'map': s = 'EMap %s (%s) %s' % (c(e[1]), e[2], c(e[3]))
    elif k == 'range': s = 'ERange %s %s %s' % (c(e[1]), c(e[2]), str(e[3]).lower())
    elif k == 'if': s = 'EIf %s %s %s' % (c(e[1]), c(e[2]), c(e[3]))
    elif k == 'match': s = 'EMatch %s %s' % (c(e[1]), lst(['(%s, %s)' % (a, c(b)) for a, b in e[2]]))
    elif k == 'while': s = 'EWhile %s %s' % (c(e[1]), c(e[2]))
    elif k == 'for': s = 'EFor (%s) %s %s' % (e[1], c(e[2]), c(e[3]))
    elif k == 'return': s = 'EReturn ' + c(e[1])
    elif k == 'try': s = 'ETry ' + c(e[1])
    elif k == 'assign': s = 'EAssign %s (%s) %s' % (c(e[1]), p.coq_ty(e[2]), c(e[3]))
    elif k == 'opassign': s = 'EOpAssign %s %s %s' % (e[1], c(e[2]), c(e[3]))
    elif k == 'let': s = 'ELet (%s) (%s) %s\n  %s' % (e[1], p.coq_ty(e[2]), c(e[3]), c(e[4]))
    elif k == 'letu': s = 'EDeclare %s\n  %s' % (e[1][5:], c(e[2]))
    elif k == 'seq': s = 'ESeq %s\n  %s' % (c(e[1]), c(e[2]))
    else: raise AssertionError(k)
    return '(%s)' % s

def wrap(s, n=100):
    out = []
    for l in s.split('\n'):
        while len(l) > n:
            k = l.rfind(' ', 0, n)
            # never inside a string
            while k > 0 and l[:k].count('"') % 2: k = l.rfind(' ', 0, k)
            if k <= 2: break
            out.append(l[:k]); l = '  ' + l[k + 1:]
        out.append(l)
    return '\n'.join(out)

def ident(name): return name.replace('::', '_')

def main():
    w = dict(uses={m: {} for m in MODULES}, aliases={}, structs={}, traits={}, consts=[], fns=[])
    texts = {m: open('%s/%s.rs' % (SRC, m)).read() for m in MODULES}
    for m in MODULES: Parser(m, texts[m], w).items(True)
    for m in MODULES: Parser(m, texts[m], w).items(False)
    out = ['(** Syntax trees of the functions and constants of /repo/src.  Written by',
           '    tools/gen_source.py from the text of /repo; do not edit. *)',
           'From Coq Require Import NArith List String.', 'From Verif.Source Require Import Syntax.',
           'Import ListNotations.', 'Local Open Scope string_scope.', 'Local Open Scope N_scope.', '']
    for n, t, e, m, a, b, p in w['consts']:
        out.append('(** src/%s.rs:%s *)' % (m, a if a == b else '%d-%d' % (a, b)))
        out.append(wrap('Definition c_%s : ty * expr := (%s, %s).' % (ident(n), p.coq_ty(t), coq(e, p))))
        out.append('')
    for m, f, p in w['fns']:
        mode = lambda t: 'ByMut' if t[0] == 'ref' and t[1] else 'ByVal'
        ps = lst(['(%s, %s, %s)' % (q(n), mode(t), p.coq_ty(t)) for n, t in f['params']])
        out.append('(** src/%s.rs:%d-%d *)' % (m, f['line'], f['end']))
        out.append(wrap('Definition f_%s : fn := mkFn %s (%s)\n  %s.' % (ident(f['name']), ps, p.coq_ty(f['ret']), coq(f['body'], p))))
        out.append('')
    out.append('Definition constants : list (string * (ty * expr)) := [\n  ' +
               ';\n  '.join('(%s, c_%s)' % (q(n), ident(n)) for n, *_ in w['consts']) + '].')
    out.append('')
    out.append('Definition functions : list (string * fn) := [\n  ' +
               ';\n  '.join('(%s, f_%s)' % (q(f['name']), ident(f['name'])) for _, f, _ in w['fns']) + '].')
    open(OUT, 'w').write('\n'.join(out) + '\n')
    print(len(w['consts']), 'constants', len(w['fns']), 'functions')

main()
