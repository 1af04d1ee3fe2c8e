"""Writes DESIGN.md: plan, trusted base, axioms per theorem (from coqc's output), coverage, findings."""
import json,os,re,glob,subprocess,sys
sys.path.insert(0,'/verif/tools')
from plan import plan
from findings import FINDINGS, COVERAGE, UNMODELLED
R='/verif/rocq'
props=[json.loads(l) for l in open('/verif/properties.jsonl')]
where={}
for f in sorted(glob.glob(R+'/theories/Properties/*.v')):
    for m in re.finditer(r'^Theorem (C\d+)_',open(f).read(),re.M):
        where.setdefault(m.group(1),set()).add(os.path.basename(f)[:-2])
cache='/tmp/assum.json'
def axioms():
    out={}
    for f in sorted(glob.glob(R+'/theories/Properties/*.v')):
        names=re.findall(r'^Print Assumptions (\S+)\.',open(f).read(),re.M)
        r=subprocess.run(['coqc','-Q','theories','Verif',f],cwd=R,capture_output=True,text=True)
        blocks=re.split(r'(?m)^(Closed under the global context|Axioms:)$',r.stdout)
        got=[]
        for k in range(1,len(blocks),2):
            got.append([] if blocks[k].startswith('Closed') else re.findall(r'(?m)^([A-Za-z_.]+)\s*:',blocks[k+1]))
        assert len(got)==len(names),(f,len(got),len(names))
        for n,a in zip(names,got): out[n]=a
    return out
if '--fresh' in sys.argv or not os.path.exists(cache):
    json.dump(axioms(),open(cache,'w'))
ax=json.load(open(cache))
withax={}
for n,a in ax.items():
    if a: withax.setdefault(tuple(sorted(a)),[]).append(n)
o=open('/verif/DESIGN.md','w')
w=lambda s: o.write(s+'\n')
w("""# Formal model of DMOJ/judge in Rocq (Coq 8.16.1)

## Layout

`rocq/theories/` is mapped to the logical name `Verif`.

- `Model/*.v`  executable Gallina model of the code, function by function, each definition citing `/repo` file and lines.
- `Spec/*.v`   small independent specifications (what the code should do, in terms a user would recognise).
- `Proofs/*.v` lemmas.
- `Properties/*.v` only the property theorems (`exact lemma.` + `Print Assumptions`) and the non-vacuity Examples.

Bytes and characters are `N`; byte strings and text are `list N`.  Python exceptions are constructors of result types.
Behaviour of the environment (kernel, compilers, zlib, `float()`, other threads' timing) is a function argument, an event list
or a schedule, quantified universally in the theorems; any assumption about it is a hypothesis visible in the statement.
Concurrent code is a transition system whose steps are the atomic actions of each thread; theorems hold for every schedule.

`tools/` holds the scripts that generate the bookkeeping files: `props.py` (properties.jsonl), `manifest.py` (MANIFEST.json),
`design.py` (this file), `tables.py` (system call tables, from /repo's .tbl files), `unicode.py` (the \\\\d and \\\\w tables), `seed.py`
(plants a bug in a scratch copy of the model, rebuilds, and logs which theorems fail, in seeded/LOG.jsonl).

## Plan per property

The file in brackets is the one in `Properties/` (with namesakes in `Model/`, `Spec/`, `Proofs/`).
""".replace('\\\\\\\\','\\'))
for x in props:
    w(f"- **{x['id']}** [{', '.join(sorted(where.get(x['id'],['?'])))}] {x['title']}. {plan[x['id']]}")
w("""
## Trusted base

- Coq 8.16.1's kernel (`vm_compute` included), and the statements of the theorems with the definitions in `Model/` and `Spec/` they mention.
- The reading of /repo by hand: nothing ties the model to the code mechanically.  Each definition cites the lines it models.
- The generated tables (`Model/*Tables*.v`): system call numbers copied from /repo's own tables, \\d and \\w of Unicode 14.
- No axioms of our own.  `Print Assumptions` says "Closed under the global context" for every theorem except the following,
  which use the standard library's real numbers (through Flocq):
""")
for a,names in sorted(withax.items()):
    w(f"  - {', '.join('`'+n+'`' for n in sorted(names))}: {', '.join('`'+x+'`' for x in a)}")
w(f"\n  ({sum(1 for a in ax.values() if not a)} theorems are closed, {sum(1 for a in ax.values() if a)} use these axioms.)\n")
w("## What is modelled\n")
w("| /repo | model files |\n|---|---|")
cited={}
for f in sorted(glob.glob(R+'/theories/Model/*.v')):
    s=open(f).read()
    for m in re.finditer(r'([\w/.-]+\.(?:pyx|py|cpp|c|h))',s):
        cited.setdefault(os.path.basename(m.group(1)),set()).add(os.path.basename(f)[:-2])
files=[]
for d,_,fs in os.walk('/repo/dmoj'):
    for x in fs:
        p=os.path.join(d,x)[6:]
        if x.endswith(('.py','.pyx','.cpp','.c','.h')) and '/tests/' not in p and x!='__init__.py': files.append(p)
un=[]
for p in sorted(files):
    c=cited.get(os.path.basename(p))
    if c and p not in COVERAGE.get('drop',[]): w(f"| {p} | {', '.join(sorted(c))} |")
    else: un.append(p)
w("\n## What is not modelled\n")
for t in UNMODELLED: w("- "+t)
w("- Files with no definition in the model: "+', '.join(p[5:] for p in un)+".\n")
w("## Findings\n\nWhere a property fails of the code as written, a theorem named `..._refuted` gives a concrete case and the property in\nproperties.jsonl says what is true instead.  Other observations made while modelling are listed with them.\n")
for t,l in FINDINGS:
    w(f"### {t}\n")
    for x in l: w("- "+x)
    w("")
w("""## Simplifications

Each is stated in the comment of the definition concerned.  The recurring ones: points of the line-count and contrib checkers are
rationals or an abstract monotone rounding rather than doubles (the floats checkers and the clock use IEEE binary64); time is a number
of ticks chosen by the schedule; logging, printing of colours and exception texts are left out unless they are reported to the server;
file systems are predicates or finite maps.
""")
