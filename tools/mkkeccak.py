# Transcribes the straight-line loop body of KeccakF1600_StatePermute
# (fips202.c:145-333) into the statement syntax of ModelFips202.v
import re
lines=open('/repo/fips202.c').read().split('\n')[144:333]
out=[]
def expr(e):
    e=e.strip()
    e=re.sub(r'ROL\((\w+), (\d+)\)',r'ERol \1 \2',e)
    e=re.sub(r'KeccakF_RoundConstants\[round(?: *\+ *(\d))?\]',lambda m:f'ERC {m[1] or 0}',e)
    e=e.replace('^','^^').replace('&','&&&').replace('(~','(~~ ')
    return e
for l in lines:
    l=l.strip()
    if not l or l.startswith('//'): continue
    m=re.fullmatch(r'(\w+) (\^?=) (.*);',l)
    if not m: raise Exception(l)
    op='::=' if m[2]=='=' else '^^='
    out.append(f'{m[1]} {op} {expr(m[3])}')
print(' ;\n'.join('   '+s for s in out))
