"""Generates the Coq tables of the quadrature rules from the source text."""
import quadrature as q
OUT='/verif/rocq/theories/'
def dec(s):
    neg=s.startswith('-');s=s.lstrip('-')
    m,e=s.split('e');i,f=m.split('.')
    p=int(i+f);pl=len(f)-int(e)
    assert pl>=0
    t=f'Dec {p} {pl}' if not neg else f'Dec (-{p}) {pl}'
    return t
for name,(f,d) in q.FILES.items():
    o=open(OUT+f'Quad{name}.v','w')
    o.write(f"(** * The tables of GeDiM/src/Quadrature/{f} *)\n")
    o.write("From Verif Require Import Base QuadModel.\nLocal Open Scope Z_scope.\n\n")
    cases=[]
    for r in q.parse(name):
        nm=f"{name}_{max(r['orders'])}"
        o.write(f"(** FillPointsAndWeights, order {', '.join(map(str,r['orders']))}: {f}:{r['start']}-{r['end']}. *)\n")
        o.write(f"Definition {nm} : rule := Rule {'true' if r['zero'] else 'false'} [\n")
        L=[]
        for j in range(r['n']):
            assert all((i,j) in r['p'] for i in range(d)) and all((i,j) not in r['p'] for i in range(d,3))
            L.append("  (["+"; ".join(dec(r['p'][i,j]) for i in range(d))+"], "+dec(r['w'][j])+")")
        assert len(r['w'])==r['n']==r['m'] and len(r['p'])==d*r['n']
        o.write(";\n".join(L)+"].\n\n")
        cases.append((r['orders'],nm))
    o.write(f"(** The switch of FillPointsAndWeights; other orders throw. *)\n")
    o.write(f"Definition {name}_Fill (order : nat) : outcome rule :=\n  match order with\n")
    for os,nm in cases: o.write("  | "+" | ".join(f"{x}%nat" for x in os)+f" => Ok {nm}\n")
    o.write("  | _ => Throw\n  end.\n")
    o.close()
