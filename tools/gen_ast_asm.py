#!/usr/bin/env python3
"""Translate member functions of micropp_t in /repo/src/assembly.cpp and solve.cpp into
syntax trees of rocq/theories/Clite.v.

As gen_ast.py, with in addition: data members are fields of the object `this`; the members
A (a struct) and material_list (an array of structs) are fields holding a pointer to a
separate object; a local struct is a variable holding a pointer to it, and so is a struct
passed by reference; a scalar whose address is taken is an array of one element; bool is
int; local arrays are allocated when their declaration is reached; a table given with a
declaration becomes stores; getElemDisp is called getElemDisp2 or getElemDisp3 by its number
of arguments.  Usage: python3 tools/gen_ast_asm.py [source directory] > rocq/theories/AsmAst.v
"""
import re, sys, os
sys.path.insert(0, os.path.dirname(os.path.abspath(__file__)))
import gen_ast
from gen_ast import P, strip, tokens, blk

ROOT = sys.argv[1] if len(sys.argv) > 1 else '/repo'
FUNCS = [('src/assembly.cpp', f) for f in
         ['set_displ', 'assembly_rhs', 'assembly_mat', 'get_elem_mat2D', 'get_elem_mat3D',
          'get_ctan_plast_sec', 'get_ctan_plast_exact', 'get_ctan_plast_pert', 'calc_bmat_3D',
          'get_elem_rhs2D', 'get_elem_rhs3D', 'calc_ave_stress', 'calc_ave_strain', 'calc_fields',
          'get_stress2D', 'get_dev_tensor', 'get_stress3D', 'plastic_step', 'get_material',
          'get_strain2D', 'get_strain3D', 'getElemDisp2', 'getElemDisp3']] + \
        [('src/solve.cpp', f) for f in ['solve', 'newton_raphson']]
MEMBERS = dict([(n, 'int') for n in 'dim nx ny nz nn npe nvoi nelem micro_type num_int_vars'.split()] +
               [(n, 'double') for n in 'lx ly lz dx dy dz width inv_tol inv_max'.split()] +
               [(n, 'double*') for n in 'u du b elem_stress elem_strain vars_old vars_new'.split()] +
               [('elem_type', 'int*'), ('A', 'obj:ell_matrix'), ('material_list', 'objs:material_t')])
STRUCTS = {'material_t': {'E': 'double', 'nu': 'double', 'k': 'double', 'mu': 'double',
                          'lambda': 'double', 'Ka': 'double', 'Sy': 'double', 'plasticity': 'int',
                          'damage': 'int'},
           'ell_solver': {'max_its': 'int', 'its': 'int', 'min_tol': 'double', 'err': 'double'}}
BASE = {'int', 'double', 'bool', 'material_t', 'ell_solver'}
METHODS = {f for _, f in FUNCS} | {'getElemDisp'}

def constant(toks):
    v = 1
    for t in toks:
        if t == '*': continue
        v *= int(t)
    return v

class Q(P):
    def __init__(self, toks, boxes):
        P.__init__(self, toks)
        self.boxes = boxes
    def look(self, name):
        for s in reversed(self.scopes):
            if name in s: return s[name]
        if name in MEMBERS: return None
        self.fail('unknown name %s' % name)
    def name(self, v):
        r = self.look(v)
        if r is None: return ('(EFld (EV "this") "%s")' % v, MEMBERS[v], 'member')
        return ('(EV "%s")' % r[0], r[1], 'var')
    def val(self, a):
        """the value of a name: the content of a boxed scalar"""
        if a[1].startswith('box:'): return ('(EIdx %s (EI 0))' % a[0], a[1][4:])
        return (a[0], a[1])
    def unary(self):
        v = self.cur()
        if v == '+':
            self.eat(); return self.unary()
        if v == '-':
            self.eat(); a = self.unary()
            return ('(ENeg %s)' % a[0], a[1])
        if v == '*':
            self.eat(); a = self.unary()
            if not a[1].endswith('*'): self.fail('dereference')
            return ('(EIdx %s (EI 0))' % a[0], a[1][:-1])
        if v == '&':
            self.eat()
            a = self.name(self.eat())
            if a[1].startswith('box:'): return (a[0], a[1][4:] + '*')
            if a[1].startswith('obj:'): return (a[0], a[1][4:] + '*')
            self.fail('address')
        return self.postfix()
    def postfix(self, lvalue=False):
        if self.kind() == 'id' and self.cur() not in ('sqrt', 'fabs', 'true', 'false'):
            a = self.name(self.eat())
            last = ('var', a)
            a = self.val(a)
        else:
            a = self.primary()
            last = None
        while True:
            if self.cur() in ('->', '.'):
                op = self.eat()
                f = self.eat()
                if a[1].startswith('elem:'):
                    st = a[1][5:]
                    a = ('(EElt %s %s "%s")' % (a[0][0], a[0][1], f), STRUCTS[st][f])
                    last = None
                    continue
                st = a[1][4:] if op == '.' and a[1].startswith('obj:') else a[1][:-1]
                if op == '->' and not a[1].endswith('*'): self.fail('->')
                last = ('fld', a, f, STRUCTS[st][f])
                a = ('(EFld %s "%s")' % (a[0], f), STRUCTS[st][f])
            elif self.cur() == '[':
                self.eat(); i = self.expr(); self.eat(']')
                if a[1].startswith('objs:'):
                    a = ((a[0], i[0]), 'elem:' + a[1][5:])
                elif a[1].startswith('A2:'):
                    w = a[1][3:]
                    self.eat('['); j = self.expr(); self.eat(']')
                    last = ('idx2', w, a, i, j)
                    a = ('(EIdx2 %s %s %s %s)' % (w, a[0], i[0], j[0]), 'double')
                else:
                    if not a[1].endswith('*'): self.fail('index')
                    last = ('idx', a, i)
                    a = ('(EIdx %s %s)' % (a[0], i[0]), a[1][:-1])
            else:
                break
        if lvalue:
            if last is None: self.fail('left-hand side')
            return last
        return a
    def primary(self):
        if self.cur() in ('true', 'false'):
            return ('(EI %d)' % (self.eat() == 'true'), 'int')
        return P.primary(self)
    def stmt(self):
        v = self.cur()
        if v == '*' and self.at(2) == '++' and self.at(3) == ';':
            self.eat(); x = self.look(self.eat()); self.eat(); self.eat()
            if not x[1].endswith('*'): self.fail('pointer increment')
            return ['(SSet "%s" (EAdr (EV "%s") (EI 1)))' % (x[0], x[0])]
        if v == 'const' or v in BASE:
            return self.decl()
        if self.kind() == 'id' and self.at(1) == '(' and v not in ('if', 'for', 'while'):
            f, args = self.call()
            self.eat(';')
            return ['(SCall "%s" [%s])' % (f, '; '.join(args))]
        return P.stmt(self)
    def call(self):
        f = self.eat(); self.eat('(')
        args = []
        while self.cur() != ')':
            args.append(self.expr()[0])
            if self.cur() == ',': self.eat()
        self.eat(')')
        if f == 'getElemDisp': f += str(len(args) - 1)
        if f in METHODS: args = ['(EV "this")'] + args
        elif not f.startswith('ell_'): self.fail('unknown function ' + f)
        return f, args
    def assign(self):
        if self.cur() in ('++', '--'):
            o = self.eat(); l = self.postfix(lvalue=True)
            return self.put(l, o[0], ('(EI 1)', 'int'))
        if self.cur() == '*':
            self.eat()
            p = self.unary()
            l = ('idx', p, ('(EI 0)', 'int'))
        else:
            l = self.postfix(lvalue=True)
        o = self.eat()
        if o in ('++', '--'): return self.put(l, o[0], ('(EI 1)', 'int'))
        if o == '=' and self.cur() in METHODS and self.at(1) == '(':
            f, args = self.call()
            return ['(SCallR "ret" "%s" [%s])' % (f, '; '.join(args))] + \
                self.put(l, None, ('(EV "ret")', 'double'))
        e = self.expr()
        if o == '=': return self.put(l, None, e)
        if o in ('+=', '-=', '*=', '/='): return self.put(l, o[0], e)
        self.fail('assignment %s' % o)
    def put(self, l, o, e):
        if l[0] == 'var':
            a = l[1]
            if a[2] == 'member': self.fail('assignment to a member')
            cur, ty = self.val(a)
        elif l[0] == 'fld': cur, ty = '(EFld %s "%s")' % (l[1][0], l[2]), l[3]
        elif l[0] == 'idx': cur, ty = '(EIdx %s %s)' % (l[1][0], l[2][0]), l[1][1][:-1]
        elif l[0] == 'idx2':
            cur, ty = '(EIdx2 %s %s %s %s)' % (l[1], l[2][0], l[3][0], l[4][0]), 'double'
        if o: e = self.mk(o, (cur, ty), e)
        if ty == 'int' and e[1] == 'double': self.fail('double to int')
        x = self.conv(e, ty)
        if l[0] == 'var':
            if l[1][1].startswith('box:'): return ['(SStore %s (EI 0) %s)' % (l[1][0], e[0])]
            return ['(SSet "%s" %s)' % (re.match(r'\(EV "(.*)"\)', cur).group(1), x)]
        if l[0] == 'fld': return ['(SFld %s "%s" %s)' % (l[1][0], l[2], x)]
        if l[0] == 'idx2':
            return ['(SStore %s (EIx2 %s %s %s) %s)' % (l[2][0], l[1], l[3][0], l[4][0], e[0])]
        return ['(SStore %s %s %s)' % (l[1][0], l[2][0], e[0])]
    def dims(self):
        out = []
        while self.cur() == '[':
            self.eat()
            ts = []
            while self.cur() != ']': ts.append(self.eat())
            self.eat(']')
            out.append(constant(ts))
        return out
    def decl(self):
        while self.cur() == 'const': self.eat()
        base = self.eat()
        if base == 'bool': base = 'int'
        out = []
        mt = {'int': 'TInt', 'double': 'TDbl'}
        while True:
            name = self.eat()
            d = self.dims()
            if base in STRUCTS:
                u = self.declare(name, 'obj:' + base)
                out.append('(SStruct "%s" [%s])' % (u, '; '.join('"%s"' % f for f in STRUCTS[base])))
            elif d:
                n = d[0] * (d[1] if len(d) == 2 else 1)
                if len(d) == 2 and base != 'double': self.fail('array')
                items = None
                if self.cur() == '=':
                    self.eat(); items = self.init()
                u = self.declare(name, 'A2:%d' % d[1] if len(d) == 2 else base + '*')
                out.append('(SMalloc "%s" %s (EI %d))' % (u, mt[base], n))
                if items is not None:
                    if len(d) == 2: items = [x for r in items for x in r]
                    if len(items) != n: self.fail('table')
                    out += ['(SStore (EV "%s") (EI %d) %s)' % (u, k, x) for k, x in enumerate(items)]
            elif name in self.boxes:
                e = None
                if self.cur() == '=':
                    self.eat(); e = self.expr()
                u = self.declare(name, 'box:' + base)
                out.append('(SMalloc "%s" %s (EI 1))' % (u, mt[base]))
                if e: out.append('(SStore (EV "%s") (EI 0) %s)' % (u, e[0]))
            elif self.cur() == '=':
                self.eat()
                e = self.expr()
                out.append('(SSet "%s" %s)' % (self.declare(name, base), self.conv(e, base)))
            else:
                self.declare(name, base)
            if self.cur() != ',': break
            self.eat()
        self.eat(';')
        return out

def param(p):
    while p.cur() == 'const': p.eat()
    base = p.eat()
    if base == 'bool': base = 'int'
    if p.cur() == '(':                       # double (&Ae)[n]
        p.eat(); p.eat('&'); n = p.eat(); p.eat(')')
        p.dims()
        return n, base + '*'
    if p.cur() == '*': p.eat(); return p.eat(), base + '*'
    if p.cur() == '&': p.eat(); return p.eat(), 'obj:' + base
    n = p.eat()
    d = p.dims()
    if len(d) == 2: return n, 'A2:%d' % d[1]
    if len(d) == 1: return n, base + '*'
    return n, base

def prepare(path):
    text = strip(open(os.path.join(ROOT, path)).read())
    hdr = strip(open(os.path.join(ROOT, 'include/micro.hpp')).read())
    for m in ['#define glo_elem3D(ex,ey,ez) ((ez) * (nx-1) * (ny-1) + (ey) * (nx-1) + (ex))',
              '#define intvar_ix(e,gp,var) ((e) * 8 * INT_VARS_GP + (gp) * INT_VARS_GP + (var))']:
        if m not in hdr: raise SystemExit('macro changed: ' + m)
    if 'nod_index' in text and \
            '#define nod_index(i,j,k) ((k)*nx*ny + (j)*nx + (i))' not in text:
        raise SystemExit('macro nod_index changed')
    nums = dict(re.findall(r'#define (\w+)[ \t]+([0-9.eE+-]+)[ \t]*\n', hdr + text))
    text = re.sub(r'#[^\n]*', '', text)
    arg = r'([^(),]*)'
    three = r'\(' + arg + ',' + arg + ',' + arg + r'\)'
    text = re.sub('nod_index' + three, r'((\3)*nx*ny + (\2)*nx + (\1))', text)
    text = re.sub('glo_elem3D' + three, r'((\3) * (nx-1) * (ny-1) + (\2) * (nx-1) + (\1))', text)
    text = re.sub('intvar_ix' + three, r'((\1) * 8 * INT_VARS_GP + (\2) * INT_VARS_GP + (\3))', text)
    for k, v in nums.items(): text = re.sub(r'\b%s\b' % k, v, text)
    return tokens(text) + [('<eof>', 'op', 0)]

def tree(path, f, cache, Q=Q):
    toks = cache.setdefault(path, prepare(path))
    base = f.rstrip('23') if f.startswith('getElemDisp') else f
    found = [k for k in range(2, len(toks) - 1) if toks[k][0] == base and toks[k + 1][0] == '('
             and toks[k - 1][0] == ':' and toks[k - 2][0] == ':']
    i = found[int(f[-1]) - 2] if f.startswith('getElemDisp') else found[0]
    p = Q(toks, set())
    p.i = i + 2
    p.scopes = [{}]
    params = [p.declare('this', 'this*')]
    while p.cur() != ')':
        n, ty = param(p)
        params.append(p.declare(n, ty))
        if p.cur() == ',': p.eat()
    p.eat(')')
    # the scalars of this function whose address is taken
    k, depth, boxes = p.i, 0, set()
    while True:
        t = toks[k][0]
        if t == '{': depth += 1
        if t == '}':
            depth -= 1
            if depth == 0: break
        if t == '&' and toks[k + 1][1] == 'id' and toks[k - 1][0] in ('(', ','):
            boxes.add(toks[k + 1][0])
        k += 1
    p.boxes = boxes
    body = blk(p.stmt())
    print('(** %s:%d-%d *)' % (path, toks[i][2], toks[p.i - 1][2]))
    print('Definition ast_%s : fdef := mkFun [%s]\n %s.\n'
          % (f, '; '.join('"%s"' % x for x in params), body))

def main():
    print('(** Syntax trees of functions of /repo/src/assembly.cpp and solve.cpp (the cited lines), in\n'
          '    the language of Clite.v.  Generated by tools/gen_ast_asm.py from the source text; do\n'
          '    not edit. *)')
    print('From Coq Require Import String.\nFrom Verif Require Import Base Clite EllAst.')
    print('Local Open Scope string_scope.\nLocal Open Scope Z_scope.\n')
    cache = {}
    for path, f in FUNCS: tree(path, f, cache)
    print('(** the functions by name, with those of ell.cpp *)')
    print('Definition asm_prog (f : string) : option fdef :=')
    for _, f in FUNCS:
        print('  if String.eqb f "%s" then Some ast_%s else' % (f, f))
    print('  ell_prog f.')

if __name__ == '__main__': main()
