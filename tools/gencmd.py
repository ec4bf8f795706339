#!/usr/bin/env python3
"""Read /repo/linux/hci/cmd/cmd_gen.go as text and write rocq/theories/M_cmdtab.v: for every command its name, opcode
expression, declared length, field types and whether it has a Marshal method; for every return parameter struct its field types."""
import re,os
root=os.path.dirname(os.path.dirname(os.path.abspath(__file__)))
src=open('/repo/linux/hci/cmd/cmd_gen.go').read().split('\n')
structs={};i=0
while i<len(src):
    m=re.match(r'type (\w+) struct \{',src[i])
    if m:
        j=i+1;fs=[]
        while src[j]!='}':
            t=src[j].split()
            if len(t)>=2: fs.append((t[0],t[1]))
            j+=1
        structs[m.group(1)]=(fs,i+1,j+1);i=j
    i+=1
txt='\n'.join(src)
def ft(t):
    m=re.match(r'u?int(\d+)$',t)
    if m: return '%s %d'%('FInt' if t[0]=='i' else 'FUint',int(m.group(1))//8)
    m=re.match(r'\[(\d+)\]byte$',t)
    if m: return 'FArr %s'%m.group(1)
    if t.startswith('[]'): return 'FSlice'
    raise Exception(t)
out=[r'''(** Generated by tools/gencmd.py from /repo/linux/hci/cmd/cmd_gen.go: the table of HCI commands and return parameters.
    Every entry carries the lines of the Go struct it was read from. *)
Require Import Verif.Base.
Require Export String.
Export List ListNotations.

(** Go types of struct fields: [uintN]/[intN] of the given width in bytes, [[n]byte], and any slice. *)
Inductive ftype := FUint (w : nat) | FInt (w : nat) | FArr (n : nat) | FSlice.
Record cmddesc := mkCmd {
  cd_name : string;        (* the Go type *)
  cd_op : Z;               (* OpCode() *)
  cd_len : Z;              (* Len() *)
  cd_fields : list (string * ftype);  (* the struct's fields, in order *)
  cd_marshals : bool }.    (* has a Marshal method, i.e. can be given to Send *)
Record rpdesc := mkRP { rd_name : string; rd_fields : list (string * ftype) }.
''']
cm=[];rp=[]
for n,(fs,a,b) in structs.items():
    m=re.search(r'^func \(c \*%s\) OpCode\(\) int \{ return (0x\w+)<<10 \| (0x\w+) \}'%n,txt,re.M)
    fl='; '.join('("%s", %s)'%(n_,ft(t)) for n_,t in fs)
    if m:
        l=re.search(r'^func \(c \*%s\) Len\(\) int \{ return (-?\d+) \}'%n,txt,re.M).group(1)
        has='true' if re.search(r'^func \(c \*%s\) Marshal\('%n,txt,re.M) else 'false'
        cm.append('  mkCmd "%s" (%d * 1024 + %d)%%Z (%s)%%Z [%s] %s (* cmd_gen.go:%d-%d, OpCode %s<<10|%s *)'%(n,int(m.group(1),16),int(m.group(2),16),l,fl,has,a,b,m.group(1),m.group(2)))
        assert int(m.group(2),16)<1024
    else:
        assert n.endswith('RP'),n
        rp.append('  mkRP "%s" [%s] (* cmd_gen.go:%d-%d *)'%(n,fl,a,b))
def joinl(l):
    r=[]
    for k,x in enumerate(l):
        if k<len(l)-1:
            h,c=x.split(' (* ',1); r.append(h+'; (* '+c)
        else: r.append(x)
    return '\n'.join(r)
out.append('(** The commands. *)\nDefinition cmd_table : list cmddesc := [\n%s\n].\n'%joinl(cm))
out.append('(** The return parameters. *)\nDefinition rp_table : list rpdesc := [\n%s\n].\n'%joinl(rp))
s='\n'.join(out)
s=s.replace('"\n','"\n')
s=s.replace('].\n',']%string.\n')
open(root+'/rocq/theories/M_cmdtab.v','w').write(s)
print(len(cm),len(rp))
