# Writes rocq/theories/Model/SyscallTables.v from the text of /repo/dmoj/cptbox/syscalls.
import os
D = '/repo/dmoj/cptbox/syscalls/'
o = ['(** The system call tables of dmoj/cptbox/syscalls/, copied by tools/tables.py: every line of',
     '    each file, in order. *)',
     'From Coq Require Import String List NArith.', 'Import ListNotations.', 'Local Open Scope string_scope.',
     'Local Open Scope list_scope.', '']
o += ['(** dmoj/cptbox/syscalls/aliases.list *)', 'Definition aliases_list : list (list string) :=', '  [ ' +
      ';\n    '.join('[' + '; '.join('"%s"' % w for w in l.split()) + ']' for l in open(D + 'aliases.list')) + ' ].', '']
for f in ['linux-x86', 'linux-x64', 'linux-x32', 'linux-arm', 'freebsd', 'linux-generic', 'linux-generic32']:
    rows = [l.split() for l in open(D + f + '.tbl')]
    assert all(len(r) == 2 for r in rows)
    o.append('(** dmoj/cptbox/syscalls/%s.tbl *)' % f)
    o.append('Definition %s : list (N * string) :=' % f.replace('-', '_'))
    items = ['(%s, "%s")' % tuple(r) for r in rows]
    lines = ['; '.join(items[i:i + 5]) for i in range(0, len(items), 5)]
    o.append('  [ ' + ';\n    '.join(lines) + ' ]%N.')
    o.append('')
open('/verif/rocq/theories/Model/SyscallTables.v', 'w').write('\n'.join(o))
