import re,sys
def hexs(f): return open('/repo/testdata/'+f,'rb').read().hex()
src=open('/repo/cmd/mp4tool/internal/dump/dump_test.go').read()
outs={}
for m in re.finditer(r'var (\w+) = "" \+\n((?:\t`.*\n)+)',src):
    lines=re.findall(r'`([^`]*)`',m.group(2)); outs[m.group(1)]=''.join(l+'\n' for l in lines)
print({k:len(v) for k,v in outs.items()},file=sys.stderr)
def q(s): return s.encode().hex()
v='''From Verif Require Import Base Schema Structs Registry Unmarshal BoxInfo ReadTree Extract Text GoText Stringify Edit Tool SpecStringify RepoVectors.
Local Open Scope string_scope. Local Open Scope list_scope. Local Open Scope N_scope.
Definition sample := hex "%s".
Definition encv := hex "%s".
Definition enca := hex "%s".
'''%(hexs('sample.mp4'),hexs('sample_init.encv.mp4'),hexs('sample_init.enca.mp4'))
def cfg(full='',off='false',hx='false'): return 'dump_options (lit "%s") false false false %s %s 180'%(full,off,hx)
for n,c in [('sampleMP4Output',cfg()),('sampleMP4OutputFullMvhdLoci',cfg(full='mvhd,loci')),('sampleMP4OutputOffset',cfg(off='true')),('sampleMP4OutputHex',cfg(hx='true'))]:
    v+='Definition w_%s := hex "%s".\nGoal dump_tool ascii_graphic (%s) sample = (Ok tt, w_%s). Proof. vm_compute. reflexivity. Qed.\n'%(n,q(outs[n]),c,n)
ps=open('/repo/cmd/mp4tool/internal/psshdump/psshdump_test.go').read()
w='0:\n  offset: 1307\n  size: 52\n  version: 1\n  flags: 0x000000\n  systemId: 1077efec-c0b2-4d02-ace3-3c1e52e2fb4b\n  dataSize: 0\n  base64: "AAAANHBzc2gBAAAAEHfv7MCyTQKs4zweUuL7SwAAAAEBI0VniavN7wEjRWeJq83vAAAAAA=="\n\n'
v+='Definition wp := hex "%s".\nGoal psshdump_tool encv = (Ok tt, wp) /\\ psshdump_tool enca = (Ok tt, wp). Proof. vm_compute. split; reflexivity. Qed.\n'%q(w)
open('val.v','w').write(v)
