#!/usr/bin/env python3
"""Transcribes the Go struct types and the AddBoxDef registrations of /repo into
rocq/theories/Structs.v.  Pure text processing; no Go toolchain needed."""
import re, glob, os
REPO="/repo"
OUT=os.path.join(os.path.dirname(os.path.abspath(__file__)),"..","rocq","theories","Structs.v")
files=["box.go","anytype.go"]+sorted(os.path.basename(f) for f in glob.glob(REPO+"/box_types_*.go") if not f.endswith("_test.go"))
structs={}   # name -> (file, line0, line1, fields)
alias={}
order=[]
BASIC={"uint8":"GUint 8","byte":"GUint 8","uint16":"GUint 16","uint32":"GUint 32","uint64":"GUint 64",
       "int8":"GInt 8","int16":"GInt 16","int32":"GInt 32","int64":"GInt 64","bool":"GBool","string":"GString",
       "BoxType":"GArray 4 (GUint 8)"}
def gty(t):
    if t in BASIC: return BASIC[t]
    m=re.match(r"\[(\d+)\](.+)$",t)
    if m: return "GArray %s (%s)"%(m.group(1),gty(m.group(2)))
    if t.startswith("[]"): return "GSlice (%s)"%gty(t[2:])
    if t.startswith("*"): return "GPtr (%s)"%gty(t[1:])
    return "t_"+t
def deps(t):
    t=re.sub(r"^(\[\d*\]|\*)+","",t)
    return [] if t in BASIC else [t]
for f in files:
    lines=open(os.path.join(REPO,f)).read().split("\n")
    i=0
    while i<len(lines):
        m=re.match(r"type (\w+) struct \{(\})?\s*$",lines[i])
        m2=re.match(r"type (\w+) (\w+)$",lines[i])
        if m:
            name=m.group(1); fs=[]; j=i
            if not m.group(2):
                j=i+1
                while lines[j].strip()!="}":
                    l=lines[j]
                    tagm=re.search(r'`mp4:"([^"]*)"`',l)
                    tag=tagm.group(1) if tagm else None
                    l=re.sub(r"`[^`]*`","",l); l=re.sub(r"//.*","",l).strip()
                    if l:
                        w=l.split()
                        if len(w)==1: fs.append((True,w[0],w[0],tag))
                        elif len(w)==2: fs.append((False,w[0],w[1],tag))
                        else: raise Exception(l)
                    j+=1
            structs[name]=(f,i+1,j+1,fs); order.append(name); i=j
        elif m2 and m2.group(2) in structs:
            s=structs[m2.group(2)]
            structs[m2.group(1)]=(f,i+1,i+1,s[3]); order.append(m2.group(1))
        i+=1
done=[]
def visit(n):
    if n in done: return
    for e,_,t,_ in structs[n][3]:
        for d in deps(t): visit(d)
    done.append(n)
skip={"boxDef"}
for n in order: visit(n)
# ---- registrations, in Go initialisation order (files sorted by name)
btf={}   # BoxTypeXxx -> code
for f in files:
    for m in re.finditer(r'func (BoxType\w+)\(\) BoxType\s*\{ return StrToBoxType\("(.{4})"\) \}',open(os.path.join(REPO,f)).read()):
        btf[m.group(1)]=m.group(2)
# GetType of each struct
gett={}
for f in files:
    for m in re.finditer(r'func \((?:\w+ )?\*?(\w+)\) GetType\(\) BoxType \{\s*return (BoxType\w+)\(\)',open(os.path.join(REPO,f)).read()):
        gett[m.group(1)]=btf[m.group(2)]
def slicevar(src,name):
    m=re.search(r"var "+name+r" = \[\]BoxType\{(.*?)\n\}",src,re.S)
    res=[]
    for l in m.group(1).split("\n"):
        l=l.strip().rstrip(",")
        a=re.match(r'StrToBoxType\("(.{4})"\)$',l)
        b=re.match(r"\{0xA9, '(.)', '(.)', '(.)'\}$",l)
        if a: res.append(("s",a.group(1)))
        elif b: res.append(("c",b.group(1)+b.group(2)+b.group(3)))
        elif l: raise Exception(l)
    return res
def bt(x):
    return 'bt_str "%s"'%x[1] if x[0]=="s" else 'bt_copy "%s"'%x[1]
regs=[]
lists={}
for f in files:
    src=open(os.path.join(REPO,f)).read(); lines=src.split("\n")
    loopvar=None
    for ln,l in enumerate(lines,1):
        m=re.search(r"for _, bt := range (\w+) \{",l)
        if m: loopvar=m.group(1); lists.setdefault(loopvar,slicevar(src,loopvar)) if "IsIlstMeta" not in l else None
        m=re.match(r"\s+(AddBoxDefEx|AddBoxDef|AddAnyTypeBoxDefEx|AddAnyTypeBoxDef)\(&(\w+)\{\}(.*?)\)(?:\s*//.*)?$",l)
        if not m: continue
        fn,st,rest=m.groups()
        args=[a.strip() for a in rest.split(",") if a.strip()]
        any_="AnyType" in fn; ex=fn.endswith("Ex")
        if any_:
            t=args.pop(0)
            a=re.match(r'StrToBoxType\("(.{4})"\)$',t); b=re.match(r"(BoxType\w+)\(\)$",t)
            if t=="bt": types=lists[loopvar]
            elif a: types=[("s",a.group(1))]
            else: types=[("s",btf[b.group(1)])]
        else: types=[("s",gett[st])]
        pred=args.pop(0) if ex else None
        for t in types:
            regs.append((f,ln,bt(t),st,any_,pred,args))
with open(OUT,"w") as o:
    o.write("(** Generated by tools/gen_structs.py from the Go sources: struct types with\n    their tags, and the box registrations in initialisation order. *)\n")
    o.write("From Verif Require Import Base Schema.\nLocal Open Scope string_scope.\nLocal Open Scope list_scope.\nLocal Open Scope N_scope.\n\n")
    for n in done:
        f,a,b,fs=structs[n]
        o.write("(* %s:%d-%d *)\n"%(f,a,b))
        o.write('Definition t_%s : gty := GStruct "%s" (\n'%(n,n))
        for e,nm,t,tag in fs:
            o.write('  GCons %s "%s" (%s) %s (\n'%("true" if e else "false",nm,gty(t),'(Some "%s")'%tag if tag is not None else "None"))
        o.write("  GNil"+")"*len(fs)+").\n\n")
    o.write('''(** A registration: AddBoxDef and friends, mp4.go:73-105.  [rg_any] marks struct
    types that carry their box type in a field (AnyTypeBox). *)
Inductive pred : Set := PAlways | PUnderUdta | PIlstMetaContainer | PUnderIlstMeta | PUnderIlstFree.
Record regdef : Set := mkreg { rg_type : list byte; rg_ty : gty; rg_any : bool; rg_pred : pred; rg_versions : list N }.
Definition bt_str (s : string) : list byte := bytes_of_string s.
Definition bt_copy (s : string) : list byte := N2b 169 :: bytes_of_string s.

''')
    for k,v in lists.items():
        o.write("(* var %s *)\nDefinition %s : list (list byte) := [\n  %s].\n\n"%(k,k,";\n  ".join(bt(x) for x in v)))
    o.write("Definition registrations : list regdef := [\n")
    P={None:"PAlways","isUnderUdta":"PUnderUdta","isIlstMetaContainer":"PIlstMetaContainer","isUnderIlstMeta":"PUnderIlstMeta","isUnderIlstFreeFormat":"PUnderIlstFree"}
    o.write(";\n".join("  (* %s:%d *) mkreg (%s) t_%s %s %s [%s]"%(f,ln,t,st,"true" if any_ else "false",P[pred],";".join(vs)) for f,ln,t,st,any_,pred,vs in regs))
    o.write("\n].\n")
print(len(done),"structs",len(regs),"registrations")
print("unregistered structs:",[n for n in done if n not in {r[3] for r in regs}])
import subprocess
tot=sum(len(re.findall(r"^\s+Add\w*BoxDef\w*\(",open(os.path.join(REPO,f)).read(),re.M)) for f in files)
print("Add calls in source:",tot,"distinct lines transcribed:",len({(r[0],r[1]) for r in regs}))
