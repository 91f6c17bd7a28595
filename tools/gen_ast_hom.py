#!/usr/bin/env python3
"""Translate calc_ctan_lin, is_linear, get_inv_1 and get_inv_2 of /repo/src/homogenize.cpp into
syntax trees of rocq/theories/Clite.v.

As gen_ast_asm.py, with in addition: the member array ctan_lin is a field holding a pointer to a
separate array; an assignment to a data member is a store to a field of `this`; a declaration whose
value is a call of a member function; `return c ? a : b` is an if; a failing assert is the integer
division 1 / 0 (whose outcome is Abort); NAN is 0.0 / 0.0.
Usage: python3 tools/gen_ast_hom.py [source directory] > rocq/theories/HomAst.v
"""
import gen_ast_asm as G

FUNCS = [('src/homogenize.cpp', f) for f in ['calc_ctan_lin', 'is_linear', 'get_inv_1', 'get_inv_2']]
G.MEMBERS['ctan_lin'] = 'double*'
G.METHODS |= {f for _, f in FUNCS}

class H(G.Q):
    def primary(self):
        if self.cur() == 'NAN':
            self.eat()
            return ('(EBin Div (EDbl (EI 0)) (EDbl (EI 0)))', 'double')
        return G.Q.primary(self)
    def postfix(self, lvalue=False):
        if self.cur() == 'NAN': return self.primary()
        return G.Q.postfix(self, lvalue)
    def stmt(self):
        v = self.cur()
        if v == 'assert':
            self.eat(); self.eat('('); c = self.expr(); self.eat(')'); self.eat(';')
            return ['(SIf %s SSkip (SSet "assert" (EBin Div (EI 1) (EI 0))))' % c[0]]
        if v == 'return':
            self.eat(); e = self.expr()
            if self.cur() == '?':
                self.eat(); a = self.expr(); self.eat(':'); b = self.expr(); self.eat(';')
                return ['(SIf %s (SRet %s) (SRet %s))' % (e[0], a[0], b[0])]
            self.eat(';')
            return ['(SRet %s)' % e[0]]
        if v == 'double' and self.at(2) == '=' and self.at(3) in G.METHODS and self.at(4) == '(':
            self.eat(); name = self.eat(); self.eat()
            f, args = self.call()
            self.eat(';')
            return ['(SCallR "%s" "%s" [%s])' % (self.declare(name, 'double'), f, '; '.join(args))]
        return G.Q.stmt(self)
    def put(self, l, o, e):
        if l[0] == 'var' and l[1][2] == 'member':
            a = l[1]
            f = a[0].split('"')[3]
            if a[1] != 'double': self.fail('assignment to a member')
            if o: e = self.mk(o, (a[0], a[1]), e)
            return ['(SFld (EV "this") "%s" %s)' % (f, self.conv(e, a[1]))]
        return G.Q.put(self, l, o, e)

def main():
    print('(** Syntax trees of functions of /repo/src/homogenize.cpp (the cited lines), in the language\n'
          '    of Clite.v.  Generated by tools/gen_ast_hom.py from the source text; do not edit. *)')
    print('From Coq Require Import String.\nFrom Verif Require Import Base Clite EllAst AsmAst.')
    print('Local Open Scope string_scope.\nLocal Open Scope Z_scope.\n')
    cache = {}
    for path, f in FUNCS: G.tree(path, f, cache, H)
    print('(** the functions by name, with those of assembly.cpp, solve.cpp and ell.cpp *)')
    print('Definition hom_prog (f : string) : option fdef :=')
    for _, f in FUNCS:
        print('  if String.eqb f "%s" then Some ast_%s else' % (f, f))
    print('  asm_prog f.')

if __name__ == '__main__': main()
