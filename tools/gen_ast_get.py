#!/usr/bin/env python3
"""Translate the bodies of the loops over gauss_list in get_macro_stress and get_macro_ctan of
/repo/src/homogenize.cpp into syntax trees of rocq/theories/Clite.v, as functions of `this`, of the
entry `gp` of the list and of the parameters.  As gen_ast_gp.py.
Usage: python3 tools/gen_ast_get.py [source directory] > rocq/theories/GetAst.v
"""
import gen_ast_asm as G
import gen_ast_gp as P

FUNCS = [('get_macro_stress', 'get_stress_gp'), ('get_macro_ctan', 'get_ctan_gp')]

def tree(f, name, toks):
    i = [k for k in range(2, len(toks) - 1) if toks[k][0] == f and toks[k + 1][0] == '('
         and toks[k - 1][0] == ':' and toks[k - 2][0] == ':'][0]
    k = i
    while toks[k][0] != 'for': k += 1
    head = [t[0] for t in toks[i + 1:k] if t[0] != 'const']
    if len(head) != 9 or head[:5] != ['(', 'int', head[2], ',', 'double'] or head[5] != '*' or head[7:] != [')', '{']:
        raise SystemExit('%s: the head' % f)
    j = k
    while toks[j][0] != ')': j += 1
    if [t[0] for t in toks[k:j] if t[0] != 'const'] != ['for', '(', 'auto', '&', 'gp', ':', 'gauss_list']:
        raise SystemExit('%s: the loop' % f)
    p = P.K(toks, set())
    p.i = j + 1
    p.scopes = [{}]
    params = [p.declare('this', 'this*'), p.declare('gp', 'obj:gp_t'), p.declare(head[2], 'int'), p.declare(head[6], 'double*')]
    body = G.blk(p.stmt())
    if toks[p.i][0] != '}': raise SystemExit('%s: something after the loop' % f)
    print('(** src/homogenize.cpp:%d-%d, the body of the loop *)' % (toks[j + 1][2], toks[p.i - 1][2]))
    print('Definition ast_%s : fdef := mkFun [%s]\n %s.\n' % (name, '; '.join('"%s"' % x for x in params), body))

def main():
    print('(** Syntax trees of the bodies of the loops of get_macro_stress and get_macro_ctan of\n'
          '    /repo/src/homogenize.cpp (the cited lines), in the language of Clite.v.  Generated by\n'
          '    tools/gen_ast_get.py from the source text; do not edit. *)')
    print('From Coq Require Import String.\nFrom Verif Require Import Base Clite EllAst AsmAst HomAst.')
    print('Local Open Scope string_scope.\nLocal Open Scope Z_scope.\n')
    toks = G.prepare('src/homogenize.cpp')
    for f, name in FUNCS: tree(f, name, toks)
    print('(** the functions by name *)')
    print('Definition get_prog (f : string) : option fdef :=')
    for _, f in FUNCS:
        print('  if String.eqb f "%s" then Some ast_%s else' % (f, f))
    print('  None.')

if __name__ == '__main__': main()
