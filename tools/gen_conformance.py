#!/usr/bin/env python3
"""Writes rocq/theories/Conformance_data.v: the airplane files of the repository's tests and
examples as values of the model's type of Python values."""
import json, os, decimal
REPO = '/repo'
FILES = [('test/geometry/testairplanes', f) for f in (
    'straight_wing_5sect', 'straight_simple_plane', 'test_plane_v2', 'vertical_wing_5sect',
    'swept_wing_5sect', 'swept_wing', 'tapered_wing_5sect', 'washout_wing_5sect',
    'aerodynamic_twist_wing_5sect', 'yoffset_wing_5sect', 'tapered_control_5sect',
    'dihedral_sweep_wing', 'multisegment_wing', 'no_control_surface', 'single_wing')] + [
    ('test/use_cases/u1_from_file', 'use_case_1'),
    ('examples', 'Example_Traditional'), ('examples', 'Example_FlyingWing')]

class Num(str):
    pass

def dec(s):
    sign, digits, exp = decimal.Decimal(s).as_tuple()
    m = int(''.join(map(str, digits))) * (-1 if sign else 1)
    if exp > 0:
        m, exp = m * 10 ** exp, 0
    while m and m % 10 == 0 and exp < 0:
        m //= 10; exp += 1
    if m == 0:
        exp = 0
    return '(%d) %d' % (m, -exp)

def term(v, ind):
    pad = ' ' * ind
    if isinstance(v, Num):
        return 'VNum (ndec %s)' % dec(v)
    if v is None:
        return 'VNone'
    if isinstance(v, bool):
        return 'VBool %s' % ('true' if v else 'false')
    if isinstance(v, int):
        return 'VInt (%d)' % v
    if isinstance(v, str):
        return 'VStr "%s"' % v.replace('"', '""')
    if isinstance(v, list):
        return 'VList [' + '; '.join(term(x, ind + 2) for x in v) + ']'
    if isinstance(v, dict):
        return 'VDict [\n' + ';\n'.join('%s  ("%s", %s)' % (pad, k, term(x, ind + 4)) for k, x in v.items()) + ']'
    raise TypeError(v)

out = ['(** Generated by tools/gen_conformance.py from the JSON files of /repo named below. *)',
       'From Coq Require Import ZArith String List.',
       'From Verif Require Import Base Num Geometry Fixed.',
       'Import ListNotations.', 'Local Open Scope string_scope.', 'Local Open Scope Z_scope.', '']
for d, f in FILES:
    path = os.path.join(REPO, d, f + '.json')
    v = json.load(open(path), parse_float=Num)
    out += ['(** %s/%s.json *)' % (d, f), 'Definition %s_json : pyval Z :=' % f.lower(), '  ' + term(v, 2) + '.', '']
open('/verif/rocq/theories/Conformance_data.v', 'w').write('\n'.join(out))
