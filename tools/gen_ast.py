#!/usr/bin/env python3
"""Translate functions of /repo/src/ell.cpp into syntax trees of rocq/theories/Clite.v.

The translation is one to one: comments are dropped, the macro nod_index is expanded, a
compound assignment a op= b becomes a = a op b, sizeof in malloc is dropped, a local
variable that hides another gets a prime.  Anything outside the covered subset stops the
script.  Usage: python3 tools/gen_ast.py [source file] > rocq/theories/EllAst.v
"""
import re, sys

SRC = sys.argv[1] if len(sys.argv) > 1 and __name__ == '__main__' else '/repo/src/ell.cpp'
FUNCS = ['ell_free', 'ell_set_zero_mat', 'ell_mvp_2D', 'ell_solve_jacobi_2D',
         'ell_solve_cgpd_2D', 'ell_solve_cgpd_struct', 'ell_add_struct2D',
         'ell_add_struct3D', 'ell_set_bc_2D', 'ell_set_bc_3D', 'ell_init_2D', 'ell_init_3D']
FIELDS = {'nrow': 'int', 'ncol': 'int', 'nnz': 'int', 'cols': 'int*', 'vals': 'double*',
          'max_its': 'int', 'its': 'int', 'min_tol': 'double', 'err': 'double'}
BASE = {'int', 'double', 'void', 'ell_matrix', 'ell_solver', 'auto'}

TOK = re.compile(r'\s*(?:(\d+\.\d*(?:[eE][-+]?\d+)?|\d+[eE][-+]?\d+|\d+)|([A-Za-z_]\w*)|'
                 r'(->|\+\+|--|\+=|-=|\*=|/=|==|!=|<=|>=|&&|\|\||.))', re.S)

def strip(text):
    text = re.sub(r'/\*.*?\*/', lambda m: re.sub(r'[^\n]', ' ', m.group(0)), text, flags=re.S)
    return re.sub(r'//[^\n]*', '', text)

def tokens(text):
    out, line = [], 1
    pos = 0
    while pos < len(text):
        m = TOK.match(text, pos)
        if not m or m.end() == pos:
            break
        line += text.count('\n', pos, m.start(m.lastindex))
        out.append((m.group(m.lastindex), ['num', 'id', 'op'][m.lastindex - 1], line))
        line += text.count('\n', m.start(m.lastindex), m.end())
        pos = m.end()
    return out

class P:
    def __init__(self, toks):
        self.t, self.i = toks, 0
        self.scopes, self.code = [], []
        self.used = set()
    def cur(self): return self.t[self.i][0]
    def kind(self): return self.t[self.i][1]
    def at(self, k): return self.t[self.i + k][0]
    def eat(self, s=None):
        v = self.t[self.i][0]
        if s is not None and v != s:
            raise SystemExit('line %d: expected %s, found %s' % (self.t[self.i][2], s, v))
        self.i += 1
        return v
    def fail(self, why):
        raise SystemExit('line %d: %s near %s' % (self.t[self.i][2], why, self.cur()))
    # scopes: C++ name -> (tree name, type)
    def declare(self, name, ty):
        u = name
        while any(u == v[0] for s in self.scopes for v in s.values()):
            u += "'"
        self.scopes[-1][name] = (u, ty)
        return u
    def look(self, name):
        for s in reversed(self.scopes):
            if name in s:
                return s[name]
        self.fail('unknown name %s' % name)
    # expressions: (tree, type)
    def expr(self): return self.orx()
    def left(self, sub, ops):
        a = sub()
        while self.cur() in ops:
            o = self.eat()
            a = self.mk(o, a, sub())
        return a
    def mk(self, o, a, b):
        names = {'+': 'Add', '-': 'Sub', '*': 'Mul', '/': 'Div', '%': 'Mod', '<': 'Lt',
                 '<=': 'Le', '>': 'Gt', '>=': 'Ge', '==': 'Eq', '!=': 'Ne'}
        if o == '||': return ('(EOr %s %s)' % (a[0], b[0]), 'int')
        if o == '&&': return ('(EAnd %s %s)' % (a[0], b[0]), 'int')
        if b[1] == 'sizeof':
            if o != '*': self.fail('sizeof')
            return (a[0], 'bytes:' + b[0])
        ty = 'int'
        if o in '+-*/%' and 'double' in (a[1], b[1]): ty = 'double'
        return ('(EBin %s %s %s)' % (names[o], a[0], b[0]), ty)
    def orx(self): return self.left(self.andx, ['||'])
    def andx(self): return self.left(self.eqx, ['&&'])
    def eqx(self): return self.left(self.relx, ['==', '!='])
    def relx(self): return self.left(self.addx, ['<', '<=', '>', '>='])
    def addx(self): return self.left(self.mulx, ['+', '-'])
    def mulx(self): return self.left(self.unary, ['*', '/', '%'])
    def unary(self):
        if self.cur() == '-':
            self.eat()
            a = self.unary()
            return ('(ENeg %s)' % a[0], a[1])
        if self.cur() == '&':
            self.eat()
            paren = self.cur() == '('
            if paren: self.eat()
            a = self.postfix(lvalue=True)
            if paren: self.eat(')')
            if a[0] != 'idx': self.fail('address of something else than an element')
            return ('(EAdr %s %s)' % (a[1][0], a[2][0]), a[1][1])
        if self.cur() == '(' and self.at(1) in BASE:        # a cast: only in front of malloc
            self.eat(); ty = self.eat(); self.eat('*'); self.eat(')')
            a = self.unary()
            if a[1] != 'malloc': self.fail('cast')
            return (a[0], 'malloc', ty)
        return self.postfix()
    def postfix(self, lvalue=False):
        a = self.primary()
        last = None
        while True:
            if self.cur() == '->':
                self.eat()
                f = self.eat()
                if f not in FIELDS: self.fail('unknown field %s' % f)
                last = ('fld', a, f)
                a = ('(EFld %s "%s")' % (a[0], f), FIELDS[f])
            elif self.cur() == '[':
                self.eat()
                i = self.expr()
                self.eat(']')
                if a[1].startswith('arr2:'):
                    w = a[1][5:]
                    self.eat('[')
                    j = self.expr()
                    self.eat(']')
                    last = ('idx2',)
                    a = ('(EIdx2 %s %s %s %s)' % (w, a[0], i[0], j[0]), 'int')
                else:
                    last = ('idx', a, i)
                    a = ('(EIdx %s %s)' % (a[0], i[0]),
                         'int' if a[1].startswith('arr1') else a[1][:-1])
            else:
                break
        if lvalue:
            return last if last else ('var', a)
        return a
    def primary(self):
        v, k = self.cur(), self.kind()
        if v == '(':
            self.eat(); a = self.expr(); self.eat(')')
            return a
        if k == 'num':
            self.eat()
            if re.fullmatch(r'\d+', v): return ('(EI %s)' % v, 'int')
            m = re.fullmatch(r'(\d+)(?:\.(\d*))?(?:[eE]([-+]?\d+))?', v)
            frac = (m.group(2) or '').rstrip('0')
            n, e = int(m.group(1) + frac), len(frac) - int(m.group(3) or 0)
            if e < 0: n, e = n * 10 ** -e, 0
            if e == 0: return ('(EDbl (EI %d))' % n, 'double')
            return ('(EDec %d %d)' % (n, e), 'double')
        if v == 'NULL':
            self.eat(); return ('ENull', 'ptr')
        if v == 'sizeof':
            self.eat(); self.eat('('); ty = self.eat(); self.eat(')')
            return (ty, 'sizeof')
        if v in ('sqrt', 'fabs'):
            self.eat(); self.eat('('); a = self.expr(); self.eat(')')
            return ('(%s %s)' % ({'sqrt': 'ESqrt', 'fabs': 'EFabs'}[v], a[0]), 'double')
        if v == 'malloc':
            self.eat(); self.eat('('); a = self.expr(); self.eat(')')
            if not a[1].startswith('bytes:'): self.fail('malloc without sizeof')
            return ((a[0], a[1][6:]), 'malloc')
        if k == 'id':
            self.eat()
            u, ty = self.look(v)
            return ('(EV "%s")' % u, ty)
        self.fail('expression')
    # statements: list of trees
    def conv(self, e, ty):
        if ty == 'double' and e[1] == 'int': return '(EDbl %s)' % e[0]
        return e[0]
    def mtype(self, e):
        ty = {'int': 'TInt', 'double': 'TDbl'}[e[2]]
        if e[0][1] != e[2]: self.fail('sizeof of another type')
        return ty, e[0][0]
    def stmt(self):
        v = self.cur()
        if v == ';':
            self.eat(); return []
        if v == '{':
            self.eat()
            self.scopes.append({})
            out = []
            while self.cur() != '}': out += self.stmt()
            self.eat('}')
            self.scopes.pop()
            return [blk(out)]
        if v == 'if':
            self.eat(); self.eat('('); c = self.expr(); self.eat(')')
            a = blk(self.stmt())
            b = 'SSkip'
            if self.cur() == 'else':
                self.eat()
                b = blk(self.stmt())
            return ['(SIf %s %s %s)' % (c[0], a, b)]
        if v == 'while':
            self.eat(); self.eat('('); c = self.expr(); self.eat(')')
            return ['(SWhile %s %s SSkip)' % (c[0], blk(self.stmt()))]
        if v == 'do':
            self.eat()
            b = blk(self.stmt())
            self.eat('while'); self.eat('('); c = self.expr(); self.eat(')'); self.eat(';')
            return ['(SDo %s %s)' % (b, c[0])]
        if v == 'for':
            return self.loop()
        if v == 'break':
            self.eat(); self.eat(';'); return ['SBreak']
        if v == 'return':
            self.eat(); e = self.expr(); self.eat(';')
            return ['(SRet %s)' % e[0]]
        if v == 'free':
            self.eat(); self.eat('('); e = self.expr(); self.eat(')'); self.eat(';')
            return ['(SFree %s)' % e[0]]
        if v == 'const' or v in BASE:
            return self.decl()
        if self.kind() == 'id' and self.at(1) == '(':
            f = self.eat(); self.eat('(')
            args = []
            while self.cur() != ')':
                args.append(self.expr()[0])
                if self.cur() == ',': self.eat()
            self.eat(')'); self.eat(';')
            return ['(SCall "%s" [%s])' % (f, '; '.join(args))]
        out = self.assign()
        self.eat(';')
        return out
    def assign(self):
        if self.cur() in ('++', '--'):
            o = self.eat(); l = self.postfix(lvalue=True)
            return self.put(l, o[0], ('(EI 1)', 'int'))
        l = self.postfix(lvalue=True)
        o = self.eat()
        if o in ('++', '--'): return self.put(l, o[0], ('(EI 1)', 'int'))
        e = self.expr()
        if o == '=': return self.put(l, None, e)
        if o in ('+=', '-=', '*=', '/='): return self.put(l, o[0], e)
        self.fail('assignment %s' % o)
    def put(self, l, o, e):
        if l[0] == 'var':
            cur, ty = l[1]
        elif l[0] == 'fld':
            cur, ty = '(EFld %s "%s")' % (l[1][0], l[2]), FIELDS[l[2]]
        elif l[0] == 'idx':
            cur, ty = '(EIdx %s %s)' % (l[1][0], l[2][0]), l[1][1][:-1]
        else: self.fail('left-hand side')
        if o: e = self.mk(o, (cur, ty), e)
        if e[1] == 'malloc':
            mt, n = self.mtype(e)
            if l[0] != 'fld': self.fail('malloc target')
            t = 'new_' + l[2]
            return ['(SMalloc "%s" %s %s)' % (t, mt, n),
                    '(SFld %s "%s" (EV "%s"))' % (l[1][0], l[2], t)]
        x = self.conv(e, ty)
        if l[0] == 'var': return ['(SSet "%s" %s)' % (re.match(r'\(EV "(.*)"\)', cur).group(1), x)]
        if l[0] == 'fld': return ['(SFld %s "%s" %s)' % (l[1][0], l[2], x)]
        return ['(SStore %s %s %s)' % (l[1][0], l[2][0], e[0])]
    def decl(self):
        while self.cur() == 'const': self.eat()
        base = self.eat()
        out = []
        while True:
            ty = base
            if self.cur() == '*':
                self.eat(); ty += '*'
            while self.cur() == 'const': self.eat()
            name = self.eat()
            dims = []
            while self.cur() == '[':
                self.eat()
                dims.append(None if self.cur() == ']' else int(self.eat()))
                self.eat(']')
            if dims:
                self.eat('=')
                items = self.init()
                if len(dims) == 2:
                    assert len(items) == dims[0] and all(len(r) == dims[1] for r in items)
                    flat = [x for r in items for x in r]
                    u = self.declare(name, 'arr2:%d' % dims[1])
                else:
                    assert dims[0] in (None, len(items))
                    flat = items
                    u = self.declare(name, 'arr1:%d' % len(items))
                out.append('(SArr "%s" [%s])' % (u, '; '.join(flat)))
            elif self.cur() == '=':
                self.eat()
                e = self.expr()
                if e[1] == 'malloc':
                    mt, n = self.mtype(e)
                    out.append('(SMalloc "%s" %s %s)' % (self.declare(name, ty), mt, n))
                else:
                    out.append('(SSet "%s" %s)' % (self.declare(name, ty), self.conv(e, ty)))
            else:
                if len(self.scopes) != 2: self.fail('declaration without a value in a block')
                self.declare(name, ty)
            if self.cur() != ',': break
            self.eat()
        self.eat(';')
        return out
    def init(self):
        self.eat('{')
        out = []
        while self.cur() != '}':
            out.append(self.init() if self.cur() == '{' else self.expr()[0])
            if self.cur() == ',': self.eat()
        self.eat('}')
        return out
    def loop(self):
        self.eat('for'); self.eat('(')
        self.scopes.append({})
        if self.cur() == 'auto':
            self.eat(); name = self.eat(); self.eat(':')
            arr, ty = self.look(self.eat())
            self.eat(')')
            n = int(ty[5:])
            u = self.declare(name, 'int')
            p = self.declare(name + '_pos', 'int')
            body = blk(['(SSet "%s" (EIdx (EV "%s") (EV "%s")))' % (u, arr, p)] + self.stmt())
            out = ['(SFor "%s" (EI 0) (EBin Lt (EV "%s") (EI %d)) %s)' % (p, p, n, body)]
        else:
            self.eat('int')
            name = self.eat(); self.eat('=')
            e = self.expr(); self.eat(';')
            u = self.declare(name, 'int')
            c = self.expr(); self.eat(';')
            if self.cur() == '++': self.eat(); x = self.eat()
            else: x = self.eat(); self.eat('++')
            if x != name: self.fail('loop step')
            self.eat(')')
            out = ['(SFor "%s" %s %s %s)' % (u, e[0], c[0], blk(self.stmt()))]
        self.scopes.pop()
        return out

def blk(l):
    if len(l) == 0: return 'SSkip'
    if len(l) == 1: return l[0]
    return '(block [' + ';\n '.join(l) + '])'

def main():
    text = strip(open(SRC).read())
    m = re.search(r'#define nod_index\(i,j,k\) \(\(k\)\*nx\*ny \+ \(j\)\*nx \+ \(i\)\)', text)
    if not m: raise SystemExit('macro nod_index changed')
    text = re.sub(r'#[^\n]*', '', text)
    text = re.sub(r'nod_index\(([^(),]*),([^(),]*),([^(),]*)\)',
                  r'((\3)*nx*ny + (\2)*nx + (\1))', text)
    toks = tokens(text) + [('<eof>', 'op', 0)]
    print('(** Syntax trees of functions of /repo/src/ell.cpp (the cited lines), in the language of\n'
          '    Clite.v.  Generated by tools/gen_ast.py from the source text; do not edit. *)')
    print('From Coq Require Import String.\nFrom Verif Require Import Base Clite.')
    print('Local Open Scope string_scope.\nLocal Open Scope Z_scope.\n')
    for f in FUNCS:
        i = next(k for k in range(len(toks) - 1) if toks[k][0] == f and toks[k + 1][0] == '('
                 and toks[k - 1][0] in ('int', 'void'))
        p = P(toks)
        p.i = i + 2
        p.scopes = [{}]
        params = []
        while p.cur() != ')':
            ty = p.eat()
            if p.cur() == '*': p.eat(); ty += '*'
            n = p.eat()
            params.append(p.declare(n, ty))
            if p.cur() == ',': p.eat()
        p.eat(')')
        body = blk(p.stmt())
        print('(** src/ell.cpp:%d-%d *)' % (toks[i][2], toks[p.i - 1][2]))
        print('Definition ast_%s : fdef := mkFun [%s]\n %s.\n'
              % (f, '; '.join('"%s"' % x for x in params), body))
    print('(** the functions by name *)')
    print('Definition ell_prog (f : string) : option fdef :=')
    for f in FUNCS:
        print('  if String.eqb f "%s" then Some ast_%s else' % (f, f))
    print('  None.')

if __name__ == '__main__':
    main()
