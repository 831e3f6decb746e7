"""Generates QuadCheck<Name>.v: the computations for each table and the case analysis over the orders."""
import quadrature as q
OUT='/verif/rocq/theories/'
# name -> (shape, 1/eps, orders treated with a smaller degree, positive weights)
CFG={'Gauss1D':('cube','5 * 10 ^ 14',{},True),'Lobatto1D':('cube','3 * 10 ^ 14',{},True),'Square':('cube','5 * 10 ^ 14',{},True),
 'Triangle':('simplex','5 * 10 ^ 12',{21:20},True),'Hexahedron':('cube','10 ^ 15',{},True),
 'Tetrahedron':('simplex','2 * 10 ^ 13',{},False),'TetrahedronPositive':('simplex','10 ^ 14',{},True)}
ONED=('Gauss1D','Lobatto1D')
for name,(f,d) in q.FILES.items():
    shape,E,less,pos=CFG[name]
    R=q.parse(name)
    key=lambda r:(tuple(sorted(r['p'].items())),tuple(r['w']))
    groups={}
    for r in R: groups.setdefault(key(r),[]).append(r)
    o=open(OUT+f'QuadCheck{name}.v','w')
    o.write(f"(** * Computations for the tables of {f} *)\nFrom Coq Require Import QArith Qcanon.\n")
    o.write(f"From Verif Require Import Base QcTac QuadModel QuadSpec QuadProof QuadCheck QuadDouble {'Quad'+name if name in ONED else 'QuadWord Quad'+name}.\nLocal Open Scope Z_scope.\n\n")
    entries=[];same=[];rep={}
    for g in groups.values():
        m=max(max(r['orders']) for r in g); nm=f"{name}_{m}"
        deg=less.get(m,m)
        for r in g:
            x=f"{name}_{max(r['orders'])}"
            for od in r['orders']: rep[od]=(len(entries),nm,deg,x)
            if x!=nm: same.append((x,nm))
        entries.append((deg,nm))
    o.write(f"(** The different tables with the degrees up to which they are checked. *)\nDefinition {name}_list : list (nat * rule) :=\n  ["+"; ".join(f"({a}%nat, {b})" for a,b in entries)+"].\n")
    if same:
        o.write("(** Tables which repeat another one. *)\n")
        for i,(x,nm) in enumerate(same): o.write(f"Lemma {x}_same : {x} = {nm}.\nProof. reflexivity. Qed.\n")
    if name in ONED:
        chk=f"check_determined {d} mr.2 && check_inside_{shape} mr.2 && check_weights mr.2"
        if name=='Lobatto1D': chk="check_inside_cube mr.2 && check_weights mr.2"
        o.write(f"\nDefinition {name}_basic (mr : nat * rule) : bool := {chk}.\n")
        o.write(f"Definition {name}_exact (mr : nat * rule) : bool := check_rule {shape}_nd {d} mr.1 ({E}) mr.2.\n")
        o.write(f"Lemma {name}_basic_list : forallb {name}_basic {name}_list = true.\nProof. vm_cast_no_check (eq_refl true). Qed.\n")
        o.write(f"Lemma {name}_exact_list : forallb {name}_exact {name}_list = true.\nProof. vm_cast_no_check (eq_refl true). Qed.\n\n")
    else:
        o.write(f"\nDefinition {name}_check (mr : nat * rule) : bool := check_table {'true' if shape=='simplex' else 'false'} {'true' if pos else 'false'} {d} mr.1 ({E}) mr.2.\n")
        o.write(f"Lemma {name}_check_list : forallb {name}_check {name}_list = true.\nProof. vm_cast_no_check (eq_refl true). Qed.\n\n")
    orders=sorted(rep); top=max(orders)
    miss=[x for x in range(top) if x not in rep]
    def cond(extra=''):
        return f"(order <= {top})%nat"+"".join(f" -> order <> {x}%nat" for x in miss)
    o.write(f"Lemma {name}_cases order : {cond()} ->\n  exists m r, In (m, r) {name}_list /\\ (order <= m{' + 1' if less else ''})%nat /\\ {name}_Fill order = Ok r"+"".join(f" /\\ (order <> {a}%nat -> (order <= m)%nat)" for a in less)+".\nProof.\n  intros Ho"+"".join(f" M{x}" for x in miss)+".\n")
    for od in range(top+1):
        o.write(f"  destruct order as [|order].\n")
        if od in miss: o.write("  { done. }\n"); continue
        i,nm,deg,x=rep[od]
        rw=f"rewrite <- {x}_same; reflexivity" if x!=nm else "reflexivity"
        o.write(f"  {{ exists {deg}%nat, {nm}. split; [{'right; '*i}left; reflexivity|]. split; [apply Nat.leb_le; reflexivity|]. "
                +(f"split; [{rw}|]. "+("intros H; by destruct H." if od in less else "intros _; apply Nat.leb_le; reflexivity.") if less else f"{rw}.")+" }\n")
    o.write("  exfalso. lia.\nQed.\n")
    o.write(f"Lemma {name}_throws order : ({top} < order)%nat -> {name}_Fill order = Throw.\nProof. intros Ho. do {top+1} (destruct order as [|order]; [exfalso; lia|]). reflexivity. Qed.\n\n")
    if name in ONED:
        o.write(f"Lemma {name}_entry m r : In (m, r) {name}_list -> {name}_basic (m, r) = true /\\ {name}_exact (m, r) = true.\n"
                f"Proof.\n  intros H. split; [exact (proj1 (forallb_forall _ _) {name}_basic_list _ H)|exact (proj1 (forallb_forall _ _) {name}_exact_list _ H)].\nQed.\n")
    else:
        o.write(f"Lemma {name}_entry m r : In (m, r) {name}_list -> {name}_check (m, r) = true.\n"
                f"Proof. exact (proj1 (forallb_forall _ _) {name}_check_list (m, r)). Qed.\n")
    o.close()
