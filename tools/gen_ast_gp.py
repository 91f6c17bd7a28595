#!/usr/bin/env python3
"""Translate the bodies of the loops over gauss_list in homogenize and update_vars of
/repo/src/homogenize.cpp into syntax trees of rocq/theories/Clite.v, as functions of `this` and of
the entry `gp` of the list.

As gen_ast_hom.py, with in addition: the array members of gp_t are fields holding pointers to
separate arrays; a call in the first operand of the condition of an if is made before the if; `!p`
is p == NULL; malloc assigned to a field.
Usage: python3 tools/gen_ast_gp.py [source directory] > rocq/theories/GpAst.v
"""
import gen_ast_asm as G
import gen_ast_hom as H

G.STRUCTS['gp_t'] = {'id': 'int', 'nr_its': 'int*', 'int_vars_n': 'double*', 'int_vars_k': 'double*',
                     'macro_strain': 'double*', 'macro_stress': 'double*', 'macro_ctan': 'double*',
                     'nr_err': 'double*', 'inv_max': 'double'}
FUNCS = [('homogenize', 'homogenize_gp'), ('update_vars', 'update_gp')]

class K(H.H):
    hoist = None
    def unary(self):
        if self.cur() == '!':
            self.eat(); a = self.unary()
            if not a[1].endswith('*'): self.fail('!')
            return ('(EBin Eq %s ENull)' % a[0], 'int')
        if self.cur() == '(' and self.at(1) == 'double':
            self.eat(); ty = self.eat(); self.eat('*'); self.eat(')')
            a = self.unary()
            if a[1] != 'malloc': self.fail('cast')
            return (a[0], 'malloc', ty)
        return H.H.unary(self)
    def postfix(self, lvalue=False):
        if self.cur() in ('NULL', 'malloc', 'sizeof'): return self.primary()
        if self.cur() in G.METHODS and self.at(1) == '(':
            if self.hoist != []: self.fail('call in an expression')
            f, args = self.call()
            self.hoist = ['(SCallR "ret" "%s" [%s])' % (f, '; '.join(args))]
            return ('(EV "ret")', 'int')
        if self.hoist == [] and self.kind() == 'id': self.hoist = None
        return H.H.postfix(self, lvalue)
    def stmt(self):
        if self.cur() != 'if': return H.H.stmt(self)
        self.eat(); self.eat('(')
        self.hoist = []
        c = self.expr()
        pre, self.hoist = self.hoist or [], None
        self.eat(')')
        a, b = G.blk(self.stmt()), 'SSkip'
        if self.cur() == 'else':
            self.eat(); b = G.blk(self.stmt())
        return pre + ['(SIf %s %s %s)' % (c[0], a, b)]
    def put(self, l, o, e):
        if e[1] == 'malloc':
            mt, n = self.mtype(e)
            if l[0] != 'fld' or o: self.fail('malloc target')
            t = 'new_' + l[2]
            return ['(SMalloc "%s" %s %s)' % (t, mt, n),
                    '(SFld %s "%s" (EV "%s"))' % (l[1][0], l[2], t)]
        return H.H.put(self, l, o, e)

def tree(f, name, toks):
    i = [k for k in range(2, len(toks) - 1) if toks[k][0] == f and toks[k + 1][0] == '('
         and toks[k - 1][0] == ':' and toks[k - 2][0] == ':'][0]
    k = i
    while toks[k][0] != 'for': k += 1
    head = [t[0] for t in toks[i + 1:k]]
    if head != ['(', ')', '{']: raise SystemExit('%s: something before the loop' % f)
    j = k
    while toks[j][0] != ')': j += 1
    if [t[0] for t in toks[k:j] if t[0] != 'const'] != ['for', '(', 'auto', '&', 'gp', ':', 'gauss_list']:
        raise SystemExit('%s: the loop' % f)
    p = K(toks, set())
    p.i = j + 1
    p.scopes = [{}]
    params = [p.declare('this', 'this*'), p.declare('gp', 'obj:gp_t')]
    depth, m = 0, i
    while True:
        t = toks[m][0]
        depth += (t == '{') - (t == '}')
        if t == '}' and depth == 0: break
        if t == '&' and toks[m + 1][1] == 'id' and toks[m - 1][0] in ('(', ','): p.boxes.add(toks[m + 1][0])
        m += 1
    body = G.blk(p.stmt())
    if p.i != m: raise SystemExit('%s: something after the loop' % f)
    print('(** src/homogenize.cpp:%d-%d, the body of the loop *)' % (toks[j + 1][2], toks[p.i - 1][2]))
    print('Definition ast_%s : fdef := mkFun [%s]\n %s.\n' % (name, '; '.join('"%s"' % x for x in params), body))

def main():
    print('(** Syntax trees of the bodies of the loops over the Gauss points of /repo/src/homogenize.cpp (the\n'
          '    cited lines), in the language of Clite.v.  Generated by tools/gen_ast_gp.py from the source\n'
          '    text; do not edit. *)')
    print('From Coq Require Import String.\nFrom Verif Require Import Base Clite EllAst AsmAst HomAst.')
    print('Local Open Scope string_scope.\nLocal Open Scope Z_scope.\n')
    toks = G.prepare('src/homogenize.cpp')
    for f, name in FUNCS: tree(f, name, toks)
    print('(** the functions by name, with those they call *)')
    print('Definition gp_prog (f : string) : option fdef :=')
    for _, f in FUNCS:
        print('  if String.eqb f "%s" then Some ast_%s else' % (f, f))
    print('  hom_prog f.')

if __name__ == '__main__': main()
