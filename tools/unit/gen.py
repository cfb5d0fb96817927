"""python3 gen.py examples file... > module.v writes the examples of the test files;
python3 gen.py probe file... writes one evaluation per assertion."""
import sys, re, os
import trans
def main(files, probe):
    out = []; n = m = 0
    for path in files:
        r, sk, line = trans.read(path); rel = path.replace('/repo/', ''); pre = os.path.basename(path)[:-3].replace('_test', '')
        for name, cs in r.items():
            n += 1; m += len(cs)
            if probe:
                out += ['Goal True. idtac "@ %s__%s %d". Abort.\nTimeout 20 Eval vm_compute in (%s).' % (pre, name, i, c) for i, c in enumerate(cs)]
            else:
                out.append('(** %s:%d *)\nExample %s__%s :\n  %s = true.\nProof. by vm_compute. Qed.' % (rel, line[name], pre, name, ' &&\n  '.join('(%s)' % c for c in cs)))
    return n, m, out
probe = sys.argv[1] == 'probe'
n, m, out = main(sys.argv[2:], probe)
print('(** Written by tools/unit/gen.py from the unit tests of la: %d tests, %d\n    assertions.  The tests are read as text; a test or assertion that the\n    reader does not follow is left out. *)' % (n, m))
print('From Verif Require Import UnitBase.\nFrom Verif Require Import Session SetArray.\n')
print('\n'.join(out))
