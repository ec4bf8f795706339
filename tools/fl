#!/usr/bin/env python3
import sys,re
for f in sys.argv[1:]:
    st=None
    for n,l in enumerate(open('/repo/'+f),1):
        if l.startswith('func '): st=(n,re.sub(r'\{.*','',l[5:]).strip())
        if st and (l.startswith('}') or (l.startswith('func ') and l.rstrip().endswith('}'))):
            print(f"{f}:{st[0]}-{n} {st[1][:70]}"); st=None
