#!/usr/bin/env python3
"""Insert 'Print Assumptions T.' after each Theorem of the Props files that lacks it."""
import re,glob
for p in glob.glob('rocq/theories/Props*.v'):
    s=open(p).read(); out=[]; cur=None
    lines=s.split('\n')
    for i,l in enumerate(lines):
        m=re.match(r'Theorem (\w+)',l)
        if m: cur=m.group(1)
        out.append(l)
        if cur and re.search(r'(^|\s)Qed\.\s*$',l):
            nxt=lines[i+1] if i+1<len(lines) else ''
            if 'Print Assumptions' not in nxt: out.append(f'Print Assumptions {cur}.')
            cur=None
    open(p,'w').write('\n'.join(out))
