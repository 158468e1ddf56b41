"""Generates rocq/theories/HueData.v (hints for the certificate checked in PfHueCheck.v)."""
import math
from fractions import Fraction as Fr
from decimal import Decimal as D, getcontext
getcontext().prec=50
import math
def lin(c):
    n=c/255.0
    return n/12.92*100 if n<=0.040449936 else 100*((n+0.055)/1.055)**2.4
M=[[0.41233895,0.35762064,0.18051042],[0.2126,0.7152,0.0722],[0.01932141,0.11916382,0.95034478]]
C=[[0.401288,0.650173,-0.051461],[-0.250268,1.204414,0.045854],[-0.002079,0.048952,0.953127]]
K=[[sum(C[i][k]*M[k][j] for k in range(3)) for j in range(3)] for i in range(3)]
print(K)
W=[95.047,100.0,108.883]
la=200/math.pi*18.418651851244416/100
f=0.8+2.0/10
d=f*(1-1/3.6*math.exp((-la-42)/92))
rw=[sum(C[i][k]*W[k] for k in range(3)) for i in range(3)]
D=[d*(100/rw[i])+1-d for i in range(3)]
k=1/(5*la+1);k4=k**4;k4f=1-k4
fl=k4*la+0.1*k4f*k4f*(5*la)**(1/3)
print(la,d,D,fl)

# lin table scale 2^52
def root5floor(num,den):  # floor((num/den)^(1/5))
    lo,hi=0,1<<54
    while hi-lo>1:
        m=(lo+hi)//2
        if m**5*den<=num: lo=m
        else: hi=m
    return lo
lt=[]
for c in range(256):
    if c<=10: lt.append(10*c*2**52//32946)
    else: lt.append(root5floor((1000*c+14025)**12*2**260, 269025**12))
print(lt[1]/2**52,lin(1)/100,lt[255]/2**52, lt[128]/2**52, lin(128)/100)
def powers(mul,t):
    t2=mul(t,t);t4=mul(t2,t2);t5=mul(t4,t);t10=mul(t5,t5);t20=mul(t10,t10);t21=mul(t20,t);t25=mul(t20,t5)
    return t21,mul(t25,t25)
mlo=lambda a,b:(a*b)>>64
mhi=lambda a,b:((a*b)>>64)+1
from functools import lru_cache
@lru_cache(None)
def grid(e,n):
    t=n<<(64-e)
    al,xl=powers(mlo,t);ah,xh=powers(mhi,t)
    q=100*al+(2713<<64)
    return ((xh>>14)+1, xl>>14, ((40000*al)<<40)//q, ((40000*ah)<<40)//(100*ah+(2713<<64))+1, ((45578400*ah)<<152)//(xl*q*q)+1)
def leaf_of(n,a,b,c):
    return (n,a[0],b[0],a[2],((b[2]-a[2])<<34)//(b[0]-a[0]),c[1],c[3],c[4])
def leaf_lo(l,x):
    return l[3]+((l[4]*(x-l[1]))>>34) if l[1]<=x<=l[2] else 0
def leaf_hi(l,x): return l[6]+((l[7]*max(0,x-l[5]))>>34)+1
N0=6140
leaves=[leaf_of(n,grid(13,n),grid(13,n+1),grid(13,n)) for n in range(N0,N0+2048)]
import bisect
keys=[l[1] for l in leaves]
def find(x):
    i=bisect.bisect_right(keys,x)-1
    return leaves[max(i,0)]
def fine(l,x):
    n=128*l[0]+128*(x-l[1])//(l[2]-l[1])
    return leaf_of(n,grid(20,n-1),grid(20,n+2),grid(20,n))
up=lambda x:x+(x>>28)+11
MARG=300000
nf=[0]
def larger(a,b,c):
    c=up(c);l1,l2,l3=find(a),find(b),find(c)
    if 2*leaf_hi(l3,c)+MARG<=leaf_lo(l1,a)+leaf_lo(l2,b): return True
    nf[0]+=1
    return 2*leaf_hi(fine(l3,c),c)+MARG<=leaf_lo(fine(l1,a),a)+leaf_lo(fine(l2,b),b)
def smaller(a,b,c):
    a=up(a);b=up(b);l1,l2,l3=find(a),find(b),find(c)
    if leaf_hi(l1,a)+leaf_hi(l2,b)+MARG<=2*leaf_lo(l3,c): return True
    nf[0]+=1
    return leaf_hi(fine(l1,a),a)+leaf_hi(fine(l2,b),b)+MARG<=2*leaf_lo(fine(l3,c),c)
coef=lambda q,k:((q*k)<<50)//10**24
q=[3967085983,3831622604,3628263358]
KK=[[30269915328759,60238031164330,7047346329738],[15374913599554,77736002827076,8535981854956],[2796570007202,14784523135458,90895832236388]]
T=[[tuple((coef(q[i],KK[i][j])*l)>>52 for i in range(3)) for l in lt] for j in range(3)]
def ex(R,G,B): return tuple(T[0][R][i]+T[1][G][i]+T[2][B][i] for i in range(3))
L=[lin(c) for c in range(256)]
def h(x):
    a=(fl*x/100)**0.42
    return 400*a/(a+27.13)

Dd=[1.02117770275752, 0.9863077294280124, 0.9339605082802299]
PP=[[Dd[i]*K[i][j] for j in range(3)] for i in range(3)]
def S(R,G,B):
    r,g,b=[h(PP[i][0]*L[R]+PP[i][1]*L[G]+PP[i][2]*L[B]) for i in range(3)]
    return r+g-2*b
hints=[];bad=0;ne=0
for G in range(256):
    start=None; rs=[]
    r=0 if G else 1
    b=0
    while b<256:
        while r<256 and S(r,G,b)<0: r+=1
        if r==256: break
        if r>0 and start is None: start=b
        if r>0: rs.append(r)
        b+=1
    if start is None: start=b
    if start>0:
        ne+=1
        if not larger(*ex(0,G,start-1)): bad+=1;print("bad",G,start)
    for i,rr in enumerate(rs):
        B=start+i; ne+=2
        if not larger(*ex(rr,G,B)): bad+=1;print("badp",rr,G,B)
        if (rr-1,G,B)!=(0,0,0) and not smaller(*ex(rr-1,G,B)): bad+=1;print("badn",rr,G,B)
    if start+len(rs)<=255:
        ne+=1
        if not smaller(*ex(255,G,start+len(rs))): bad+=1;print("bade",G)
    hints.append((start,rs))
print(bad,ne,nf,sum(len(x[1]) for x in hints))
def wrap(xs,w=150):
    out=[];cur=""
    for x in xs:
        t=str(x)+"; "
        if len(cur)+len(t)>w: out.append(cur.rstrip()); cur=""
        cur+=t
    out.append(cur.rstrip("; "))
    return "\n   ".join(out)
with open('/verif/rocq/theories/HueData.v','w') as f:
    f.write('(** * Data for HueGrid.v, generated; checked in PfHueCheck.v. *)\nFrom Coq Require Import ZArith List.\nImport ListNotations.\nOpen Scope Z_scope.\n\n')
    f.write('(** The linear channel values times 2^52, rounded down. *)\nDefinition lin_tab : list Z :=\n  [%s].\n\n'%wrap(lt))
    s0,r0=hints[0]
    assert s0==0 and r0[0]==1
    f.write('(** For green 0 and blue 1, 2, ..., the first red on the positive side. *)\nDefinition first_row : list Z :=\n  [%s].\n\n'%wrap(r0[1:]))
    f.write('(** For green 1, 2, ..., 255: the first blue for which red 0 is on the negative side, and from there on the first red on the positive side. *)\nDefinition other_rows : list (Z * list Z) :=\n  [')
    f.write(';\n   '.join('(%d, [%s])'%(s,wrap(r)) for s,r in hints[1:]))
    f.write('].\n')
