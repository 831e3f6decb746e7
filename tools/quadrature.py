"""Reads the quadrature tables of /repo/GeDiM/src/Quadrature as exact decimals."""
import re
from fractions import Fraction as Fr
from math import factorial
SRC='/repo/GeDiM/src/Quadrature/'
FILES={'Gauss1D':('Quadrature_Gauss1D.hpp',1),'Lobatto1D':('Quadrature_GaussLobatto1D.hpp',1),
 'Square':('Quadrature_Gauss2D_Square.cpp',2),'Triangle':('Quadrature_Gauss2D_Triangle.cpp',2),
 'Hexahedron':('Quadrature_Gauss3D_Hexahedron.cpp',3),'Tetrahedron':('Quadrature_Gauss3D_Tetrahedron.cpp',3),
 'TetrahedronPositive':('Quadrature_Gauss3D_Tetrahedron_PositiveWeights.cpp',3)}
def parse(name):
    """list of (orders, first line, last line, zero initialised, npoints, {(i,j):text}, nweights, {i:text})"""
    rules=[];pend=[];cur=None
    for ln,l in enumerate(open(SRC+FILES[name][0]),1):
        m=re.match(r'\s*case (\d+):',l)
        if m:
            if cur: rules.append(cur);cur=None
            if not pend: start=ln
            pend.append(int(m[1]));continue
        if re.match(r'\s*default:',l):
            if cur: rules.append(cur);cur=None
            break
        m=re.match(r'\s*points\.(setZero|resize)\(3, (\d+)\);',l)
        if m: cur=dict(orders=pend,start=start,end=ln,zero=m[1]=='setZero',n=int(m[2]),p={},m=None,w={},lits=0);pend=[];continue
        m=re.match(r'\s*points\((\d+), (\d+)\) = (-?[0-9.e+-]+);',l)
        if m: assert (int(m[1]),int(m[2])) not in cur['p'] or 1; cur['p'][int(m[1]),int(m[2])]=m[3];cur['end']=ln;continue
        m=re.match(r'\s*weights\.resize\((\d+)\);',l)
        if m: cur['m']=int(m[1]);continue
        m=re.match(r'\s*weights(?:\[|\()(\d+)(?:\]|\)) = (-?[0-9.e+-]+);',l)
        if m: cur['w'][int(m[1])]=m[2];cur['end']=ln;continue
        if cur is not None and l.strip() not in('}','break;',''): print('unparsed',name,ln,l.strip())
    return rules
def exact(name,a):
    if name in('Gauss1D','Lobatto1D','Square','Hexahedron'):
        r=Fr(1)
        for k in a: r/=k+1
        return r
    d=len(a);r=Fr(1,factorial(d+sum(a)))
    for k in a:r*=factorial(k)
    return r
def monos(d,n):
    if d==1: return [(i,) for i in range(n+1)]
    return [(i,)+m for i in range(n+1) for m in monos(d-1,n-i)]
if __name__=='__main__':
    for name,(f,d) in FILES.items():
        for r in parse(name):
            n=r['n'];assert r['m']==n,(name,r['orders'],n,r['m'])
            miss=[(i,j) for i in range(d) for j in range(n) if (i,j) not in r['p']]
            mw=[i for i in range(n) if i not in r['w']]
            pts=[tuple(float(r['p'].get((i,j),'0')) for i in range(d)) for j in range(n)]
            ws=[float(r['w'][i]) for i in range(n)]
            worst=(0,)
            import math
            for a in monos(d,max(r['orders'])):
                s=math.fsum(w*math.prod(x**k for x,k in zip(p,a)) for p,w in zip(pts,ws))
                e=abs(s/float(exact(name,a))-1)
                if e>worst[0]:worst=(e,a)
            mx=0
            neg=sum(w<0 for w in ws);simplex=name in('Triangle','Tetrahedron','TetrahedronPositive')
            out=sum(1 for p in pts if min(p)<0 or (sum(p)>1 if simplex else max(p)>1))
            print(name,r['orders'],'n',n,'missing',miss[:2],mw[:2],'neg',neg,'out',out,'relerr',worst, '' if r['zero'] else 'resize')
