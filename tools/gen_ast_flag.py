#!/usr/bin/env python3
"""Translate get_nl_flag of /repo/src/micro.cpp into syntax trees of rocq/theories/Clite.v: what it
does before its loop over gauss_list, as a function of `this` and of the parameters, and the body of
the loop, as a function of `this`, of the entry `gp` of the list and of the parameters.
As gen_ast_get.py.
Usage: python3 tools/gen_ast_flag.py [source directory] > rocq/theories/FlagAst.v
"""
import gen_ast_asm as G
import gen_ast_gp as P

def main():
    print('(** Syntax trees of get_nl_flag of /repo/src/micro.cpp (the cited lines), in the language of Clite.v.\n'
          '    Generated by tools/gen_ast_flag.py from the source text; do not edit. *)')
    print('From Coq Require Import String.\nFrom Verif Require Import Base Clite EllAst AsmAst HomAst.')
    print('Local Open Scope string_scope.\nLocal Open Scope Z_scope.\n')
    toks = G.prepare('src/micro.cpp')
    f = 'get_nl_flag'
    i = [k for k in range(2, len(toks) - 1) if toks[k][0] == f and toks[k + 1][0] == '('
         and toks[k - 1][0] == ':' and toks[k - 2][0] == ':'][0]
    head = [t[0] for t in toks[i + 1:i + 10]]
    if head != ['(', 'int', head[2], ',', 'int', '*', head[6], ')', '{']: raise SystemExit('the head')
    p = P.K(toks, set())
    p.i = i + 10
    p.scopes = [{}]
    params = [p.declare('this', 'this*'), p.declare(head[2], 'int'), p.declare(head[6], 'int*')]
    a = toks[p.i][2]
    body = []
    while p.cur() != 'for': body += p.stmt()
    print('(** src/micro.cpp:%d-%d, before the loop *)' % (a, toks[p.i - 1][2]))
    print('Definition ast_flag_head : fdef := mkFun [%s]\n %s.\n' % ('; '.join('"%s"' % x for x in params), G.blk(body)))
    j = p.i
    while toks[j][0] != ')': j += 1
    if [t[0] for t in toks[p.i:j] if t[0] != 'const'] != ['for', '(', 'auto', '&', 'gp', ':', 'gauss_list']:
        raise SystemExit('the loop')
    p = P.K(toks, set())
    p.i = j + 1
    p.scopes = [{}]
    params = [p.declare('this', 'this*'), p.declare('gp', 'obj:gp_t'), p.declare(head[2], 'int'), p.declare(head[6], 'int*')]
    body = G.blk(p.stmt())
    if toks[p.i][0] != '}': raise SystemExit('something after the loop')
    print('(** src/micro.cpp:%d-%d, the body of the loop *)' % (toks[j + 1][2], toks[p.i - 1][2]))
    print('Definition ast_flag_gp : fdef := mkFun [%s]\n %s.\n' % ('; '.join('"%s"' % x for x in params), body))
    print('(** the functions by name *)')
    print('Definition flag_prog (f : string) : option fdef :=')
    for g in ('flag_head', 'flag_gp'):
        print('  if String.eqb f "%s" then Some ast_%s else' % (g, g))
    print('  None.')

if __name__ == '__main__': main()
