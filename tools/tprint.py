#!/usr/bin/env python3
"""Writes the middle part of TPrint.v (the public functions as programs of critical sections and
prints) from Print.v: the same text with W replaced by pact and M by act."""
import re,os
D=os.path.join(os.path.dirname(os.path.abspath(__file__)),'..','rocq','theories','')
s=open(D+'Print.v').read()
names=set(re.findall(r"^(?:Definition|Fixpoint) a_(\w+)",open(D+'Threads.v').read(),re.M))
s=s[s.index("(** packet.rs:22-31 and 37-46"):s.index("(** What a program of calls has printed")]
a=s.index("(** packet.rs:279-285 [__getitem__]"); b=s.index("(** ** Any public call *)")
s=s[:a]+s[b:]
def act(t):
    t=re.sub(r"\b\w+\b",lambda m:"a_"+m.group(0) if m.group(0) in names else m.group(0),t)
    return re.sub(r"(?<![\w.])(ret|lift)(?= )",r"a\1",t)
out="";i=0
while True:
    j=s.find("run (",i)
    if j<0: out+=s[i:]; break
    out+=s[i:j]; k=j+4; d=0
    while True:
        d+={'(':1,')':-1}.get(s[k],0); k+=1
        if d==0: break
    out+="qact "+act(s[j+4:k]); i=k
out=re.sub(r"\bwlet\b","qlet",out); out=re.sub(r"\bW (?=[a-z(])","pact ",out)
out=re.sub(r"\bw_(?=\w)","q_",out); out=re.sub(r"\bsay\b(?= )","qsay",out)
out=out.replace("M N.","act N.").replace("(hbit_range m x)","(a_hbit_range m x)").replace("=> lift (get_bits","=> alift (get_bits")
print(out.rstrip('\n'))
