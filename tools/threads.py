#!/usr/bin/env python3
"""Writes the middle part of Threads.v (the public functions as programs of critical sections)
from the one-thread model files: the same text with M replaced by act."""
import re,sys
import os
D=os.path.join(os.path.dirname(os.path.abspath(__file__)),'..','rocq','theories','')
def sents(f):
    s=open(D+f+'.v').read()
    # definitions with preceding comment
    out=[]
    for m in re.finditer(r"((?:\(\*\*(?:(?!\*\)).)*\*\)\n)*)((?:Definition|Fixpoint) (\w+)(?:.|\n)*?\.)(?=\n|$)",s,re.S):
        out.append((m.group(3),m.group(1),m.group(2)))
    return out
want={'Heap':None,'Packet':None,'Build':None,'Utils':None,'Show':None,'Slow':None,'Ops':['hexec'],'Client':['hmake_run','pmake_run','kexec']}
skip={'ret','fail','bind','lift','alloc','with_lock','hget_loop','hset_loop','hto_vec','hreplace','hfrom_boxed','M'}
titles={'Heap':'Headers (Heap.v)','Packet':'Packets (Packet.v)','Build':'Header constructors (Build.v)','Utils':'Packet constructors (Utils.v)',
 'Slow':'The owning parser (Slow.v)','Show':'Printing (Show.v)','Ops':'Any call (Ops.v, Client.v)','Client':None}
hand=r'''
(** headers.rs:308-312: one lock per bit. *)
Fixpoint a_hget_loop (r i n : nat) (value : N) : act N :=
  match n with
  | O => aret value
  | S n' =>
      let value := shl64 value 1 in
      ARead r (i / 8) (fun b =>
        a_hget_loop r (S i) n' (N.lor value (N.land (N.shiftr b (N.of_nat (8 - i mod 8 - 1))) 1)))
  end.
(** headers.rs:318-323: one lock per bit, the last bit first. *)
Fixpoint a_hset_loop (r lsb n : nat) (value : N) : act unit :=
  match n with
  | O => aret tt
  | S n' => AWrite r (lsb + n') (u8 (N.land value 1)) (a_hset_loop r lsb n' (N.shiftr value 1))
  end.
(** headers.rs:429-432. *)
Definition a_hto_vec (x : hdr) : act (list N) := ACopy (h_ref x) aret.
(** headers.rs:392-396. *)
Definition a_hreplace (x other : hdr) : act unit := ARepl (h_ref x) (h_ref other) (aret tt).
(** [Arc::new(Mutex::new(data))]. *)
Definition a_alloc (d : list N) : act nat := AAlloc d aret.
'''
names=set(['hget_loop','hset_loop','hto_vec','hreplace','alloc'])
order=['Heap','Packet','Show','Build','Utils','Slow','Ops','Client']
sel={}
for f in order:
    sel[f]=[]
    for n,c,b in sents(f):
        if n in skip: continue
        if want[f] is not None and n not in want[f]: continue
        head=b.split(':=')[0]
        inbody=(f=='Slow' and n in('slow_body',))
        if re.search(r":\s*M\b",head) or inbody or re.search(r"-> M\b",head.split('rec')[-1]):
            sel[f].append((n,c,b)); names.add(n)
res=[]
def tr(f,n,b):
    nn=set(names)
    if f!='Slow': nn-={'call'}
    if n.startswith('erspan'): nn-={'vlan'}
    b=re.sub(r"\bmlet\b","alet",b)
    b=re.sub(r"\bM (?=[a-zN(])","act ",b)
    for w in ('ret','fail','lift'): b=re.sub(r"(?<![\w.])%s(?= )"%w,"a"+w,b)
    return re.sub(r"\b\w+\b",lambda m:"a_"+m.group(0) if m.group(0) in nn else m.group(0),b)
def fixshadow(b): return b
for f in order:
    if titles[f]: res.append("(** ** %s *)\n"%titles[f])
    if f=='Heap': res.append(hand.strip('\n'))
    if f=='Slow': res.append("Section Bodies.\nVariable m : mode.\nVariable rec : pfun -> list N -> act packet.\n")
    for n,c,b in sel[f]:
        if f=='Slow' and n=='slow_fuel': res.append("End Bodies.\n")
        res.append(c+tr(f,n,b))
print("\n".join(res).replace("| O => fun h => (Fuel, h)","| O => ADone Fuel"))
