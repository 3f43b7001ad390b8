#!/usr/bin/env python3
"""Writes theories/Assumptions.v: Print Assumptions for all property theorems, in two groups."""
import re, glob, os
root = os.path.dirname(os.path.dirname(os.path.abspath(__file__)))
mods, free, reals = [], [], []
for f in sorted(glob.glob(root + '/rocq/theories/Properties_*.v')):
    m = os.path.basename(f)[:-2]
    mods.append(m)
    for t in re.findall(r'^Theorem (C\d\d+_\w+)', open(f).read(), re.M):
        q = m + '.' + t
        (reals if m in ('Properties_Numbers', 'Properties_Voltage') or t in ('C67_sensor', 'C71_closed_form_partial', 'C23_standard', 'C23_standard_monitor', 'C101_sensor', 'C102_sensor', 'C102_sensor_fast', 'C101_sensor_fast', 'C101_sensor_with_callbacks') else free).append(q)
def group(name, l):
    return 'Definition %s :=\n  (%s).\n' % (name, ',\n   '.join('@' + q for q in l))
out = '''(* Generated by tools/assumptions.py: what the property theorems rest on. *)
From Verif Require %s.
(* no axioms *)
%sPrint Assumptions without_axioms.
(* the axioms of Coq's real numbers *)
%sPrint Assumptions with_reals.
''' % (' '.join(mods), group('without_axioms', free), group('with_reals', reals))
open(root + '/rocq/theories/Assumptions.v', 'w').write(out)
