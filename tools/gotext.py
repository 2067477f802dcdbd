#!/usr/bin/env python3
"""Writes rocq/theories/GoDescs.v and GoText*.v: the descriptors of the messages of
/repo/testproto and /repo/conformance (read off the struct definitions and tags of their
*.pb.go files) and the text of the methods in the *_vtproto.pb.go files beside them."""
import re, sys, os
REPO="/repo"
OUT="/verif/rocq/theories"
FILES=[("ignore_unknown","testproto/ignore_unknown_fields/opt"),
       ("pool","testproto/pool/pool"),
       ("pool_oneof","testproto/pool/pool_with_oneof"),
       ("pool_slice","testproto/pool/pool_with_slice_reuse"),
       ("proto2","testproto/proto2/scalars"),
       ("proto3opt","testproto/proto3opt/opt"),
       ("unique","testproto/unique/unique"),
       ("unsafe","testproto/unsafe/unsafe"),
       ("wkt","testproto/wkt/wkt"),
       ("grpc","testproto/grpc/grpc"),
       ("grpc_inner","testproto/grpc/inner/inner"),
       ("conformance","conformance/internal/conformance/conformance"),
       ("conformance2","conformance/internal/conformance/test_messages_proto2"),
       ("conformance3","conformance/internal/conformance/test_messages_proto3")]

KNOWN=[("any","types/known/anypb/any"),("duration","types/known/durationpb/duration"),
       ("empty","types/known/emptypb/empty"),("field_mask","types/known/fieldmaskpb/field_mask"),
       ("struct","types/known/structpb/struct"),("timestamp","types/known/timestamppb/timestamp"),
       ("wrappers","types/known/wrapperspb/wrappers")]

def coqstr(s): return '"'+s.replace('"','""')+'"'

def structs(text):
    """name -> list of (member, gotype, tag)"""
    res={}
    order=[]
    for m in re.finditer(r'^type (\w+) struct \{\n(.*?)^\}',text,re.M|re.S):
        name,body=m.group(1),m.group(2)
        mem=[]
        for line in body.split("\n"):
            l=line.strip()
            if l.startswith("//") or not l: continue
            g=re.match(r'(\w+)\s+(.*?)\s+`(.*)`$',l)
            if g: mem.append((g.group(1),g.group(2),g.group(3)))
            elif re.match(r'(state|sizeCache|unknownFields|extensionFields)\s',l): mem.append((l.split()[0],None,None))
        res[name]=mem; order.append(name)
    return res,order

def tag(tags,key):
    m=re.search(key+r':"([^"]*)"',tags)
    return m.group(1) if m else None

def kind(wire,gotype,t,msgid):
    e="enum=" in t
    g=gotype.lstrip("*")
    if wire=="varint":
        if e: return "KEnum"
        return {"int32":"KInt32","int64":"KInt64","uint32":"KUint32","uint64":"KUint64","bool":"KBool"}[g]
    if wire=="zigzag32": return "KSint32"
    if wire=="zigzag64": return "KSint64"
    if wire=="fixed32": return {"uint32":"KFixed32","int32":"KSfixed32","float32":"KFloat"}[g]
    if wire=="fixed64": return {"uint64":"KFixed64","int64":"KSfixed64","float64":"KDouble"}[g]
    if wire=="bytes":
        if g=="string": return "KString"
        if g=="[]byte": return "KBytes"
        return "(KMessage %d)"%msgid(g)
    if wire=="group": return "(KGroup %d)"%msgid(g)
    raise Exception(wire)

def load(path):
    base=open(f"{REPO}/{path}.pb.go").read()
    vt=open(f"{REPO}/{path}_vtproto.pb.go").read()
    return base,vt

def descriptors(path):
    base,vt=load(path)
    st,order=structs(base)
    msgs=[n for n in order if any(a=="state" for a,_,_ in st[n])]
    ids={n:i for i,n in enumerate(msgs)}
    casts={}
    imports=dict((b,a) for a,b in re.findall(r'^\t(\w+) "github.com/planetscale/vtprotobuf/types/known/(\w+)"',vt,re.M))
    def msgid(g):
        if g in ids: return ids[g]
        pkg,n=g.split(".")
        ids[g]=len(ids)
        casts[ids[g]]=imports[pkg]+"."+n
        return ids[g]
    out=[]
    for n in msgs:
        fields=[];slots=[];members=[];protos=[]
        ext=any(a=="extensionFields" for a,_,_ in st[n])
        for a,ty,tg in st[n]:
            if ty is None: continue
            sl=len(slots); slots.append(a)
            if tag(tg,"protobuf_oneof"):
                # the wrappers, in order
                iface=ty
                for w in re.findall(r'^func \(\*(\w+)\) '+iface+r'\(\) \{\}',base,re.M):
                    (ma,mty,mtg),=st[w]
                    t=tag(mtg,"protobuf")
                    p=t.split(",")
                    fields.append((int(p[1]),sl,"TField LOneof "+kind(p[0],mty,t,msgid)))
                    members.append((int(p[1]),ma,w,w))
                    protos.append((int(p[1]),re.search(r'name=(\w+)',t).group(1)))
                continue
            t=tag(tg,"protobuf"); p=t.split(",")
            num=int(p[1])
            protos.append((num,re.search(r'name=(\w+)',t).group(1)))
            if ty.startswith("map["):
                kt,vt_=re.match(r'map\[(\w+)\](.*)$',ty).groups()
                tk=tag(tg,"protobuf_key"); tv=tag(tg,"protobuf_val")
                fields.append((num,sl,"TMap %s %s"%(kind(tk.split(",")[0],kt,tk,msgid),kind(tv.split(",")[0],vt_,tv,msgid))))
                continue
            if p[2]=="rep":
                k=kind(p[0],ty[2:],t,msgid)
                fields.append((num,sl,"TField (LRepeated %s) %s"%("true" if ",packed" in t else "false",k)))
                continue
            k=kind(p[0],ty,t,msgid)
            if p[2]=="req": lab="LRequired"
            elif ",proto3" in t and not ty.startswith("*") and not t.endswith(",oneof"): lab="LImplicit"
            else: lab="LOptional"
            fields.append((num,sl,"TField %s %s"%(lab,k)))
        keep = "m.unknownFields" in vt
        out.append((n,ids[n],fields,len(slots),slots,members,protos,keep))
    return out,casts

def records(b):
    """the records of a message: (number, value)"""
    i=0; out=[]
    def varint():
        nonlocal i
        v=0; sh=0
        while True:
            c=b[i]; i+=1
            v|=(c&127)<<sh; sh+=7
            if c<128: return v
    while i<len(b):
        k=varint(); n,w=k>>3,k&7
        if w==0: out.append((n,varint()))
        elif w==2:
            l=varint(); out.append((n,b[i:i+l])); i+=l
        elif w==5: out.append((n,b[i:i+4])); i+=4
        elif w==1: out.append((n,b[i:i+8])); i+=8
        else: raise Exception(w)
    return out

def raw(path):
    """Go name -> (extension ranges, numbers of unique fields, mempool), from the file descriptor"""
    base=load(path)[0]
    m=re.search(r'_rawDesc = \[\]byte\{(.*?)\n\}',base,re.S)
    data=bytes(int(x,16) for x in re.findall(r'0x([0-9a-f]{2})',m.group(1)))
    res={}
    def get(rs,n): return [v for k,v in rs if k==n]
    def msg(prefix,b):
        rs=records(b)
        name=get(rs,1)[0].decode()
        go=prefix+name[0].upper()+name[1:]
        ext=[(get(records(r),1)[0],get(records(r),2)[0]) for r in get(rs,5)]
        uniq=[]
        for f in get(rs,2):
            fr=records(f)
            for o in get(fr,8):
                for e in get(records(o),64150):
                    if 1 in get(records(e),1): uniq.append(get(fr,3)[0])
        pool=any(1 in get(records(o),64101) for o in get(rs,7))
        res[go]=(ext,uniq,pool)
        for n in get(rs,3): msg(go+"_",n)
    for t in get(records(data),4): msg("",t)
    return res

def types(path):
    """Go name of a message -> [(number, enum or message type)]"""
    base,vt=load(path)
    st,order=structs(base)
    res={}
    def elem(ty):
        ty=re.sub(r'^map\[\w+\]','',ty)
        ty=re.sub(r'^\[\]','',ty).lstrip("*")
        return None if re.match(r'(bool|string|\[\]byte|byte|u?int(32|64)|float(32|64))$',ty) else ty
    for n in order:
        l=[]
        for a,ty,tg in st[n]:
            if ty is None: continue
            if tag(tg,"protobuf_oneof"):
                for w in re.findall(r'^func \(\*(\w+)\) '+ty+r'\(\) \{\}',base,re.M):
                    (ma,mty,mtg),=st[w]
                    l.append((int(tag(mtg,"protobuf").split(",")[1]),elem(mty)))
            else: l.append((int(tag(tg,"protobuf").split(",")[1]),elem(ty)))
        res[n]=[(a,b) for a,b in l if b]
    return res

def functions(vt,meth_re):
    return [m.group(0) for m in re.finditer(r'^func \((?:m|this) \*\w+\) '+meth_re+r' \{.*?^\}\n',vt,re.M|re.S)]

def main():
    o=open(f"{OUT}/GoDescs.v","w")
    o.write('''(** Written by tools/gotext.py.  The messages of /repo/testproto and /repo/conformance as
    descriptors: numbers, kinds, labels and Go names are read off the struct definitions and
    their tags in the *.pb.go files cited. *)
From Coq Require Import ZArith List Bool String.
From Verif Require Import Base Schema GoSyntax GenSize GoTextSpec.
Import ListNotations.
Open Scope string_scope.
Open Scope Z_scope.

''')
    for name,path in FILES:
        ds,casts=descriptors(path)
        vt=load(path)[1]
        fs=re.findall(r'^func \(m \*(\w+)\) SizeVT\(\)',vt,re.M)
        names=[d for d in ds if d[0] in fs]
        # in the order of the generated file
        pos={n:i for i,n in enumerate(fs)}
        names.sort(key=lambda d:pos[d[0]])
        base=load(path)[0]
        rd=raw(path); tys=types(path)
        # the well-known packages' messages are never pooled; pool= on the command line adds to the option
        def pooled(n): return re.search(r'^func '+n+r'FromVTPool\(',vt,re.M) is not None
        for d in names: assert not rd[d[0]][2] or pooled(d[0]),d[0]
        o.write(f"(** /repo/{path}.pb.go *)\nDefinition d_{name} : list gmsg := [\n")
        items=[]
        for n,i,fields,ns,slots,members,protos,keep in names:
            line=base[:base.index(f"type {n} struct")].count("\n")+1
            f="; ".join(f"mkF {a} {s} ({t})" for a,s,t in fields)
            mem="; ".join(f"({a}, ({coqstr(b)}, {coqstr(c)}))" for a,b,c,_ in members)
            pr="; ".join(f"({a}, {coqstr(b)})" for a,b in protos)
            items.append(f"  (* line {line} *)\n  mkG {coqstr(n)} {i} (mkM [{f}] {ns} {'true' if keep else 'false'} [{'; '.join('(%d, %d)'%r for r in rd[n][0])}] {'true' if pooled(n) else 'false'} false)\n    [{'; '.join(coqstr(s) for s in slots)}] [{mem}]\n    [{pr}]")
        o.write(";\n".join(items)+"].\n")
        tl=";\n  ".join("([%s], [%s])"%("; ".join(f"({a}, {coqstr(b)})" for a,b in tys[d[0]]),"; ".join(str(u) for u in rd[d[0]][1])) for d in names)
        o.write(f"Definition t_{name} : list (list (Z * string) * list Z) := [\n  {tl}].\n")
        cl="; ".join(f"({i}%nat, {coqstr(c)})" for i,c in sorted(casts.items()))
        o.write(f"Definition c_{name} : list (nat * string) := [{cl}].\n\n")
    o.close()
    text("Size","SizeVT",[r'SizeVT\(\) \(n int\)'])
    text("Marshal","MarshalVT, MarshalToVT and MarshalToSizedBufferVT",[r'Marshal(?:To|ToSizedBuffer)?VT\([^)]*\) \([^)]*\)'])
    text("Unmarshal","UnmarshalVT",[r'UnmarshalVT\([^)]*\) error'])
    text("Unsafe","UnmarshalVTUnsafe",[r'UnmarshalVTUnsafe\([^)]*\) error'])
    text("Equal","EqualVT and EqualMessageVT",[r'Equal(?:Message)?VT\([^)]*\) bool'])
    text("Clone","CloneVT and CloneMessageVT",[r'Clone(?:Message)?VT\(\) [\w*.]+'])
    text("Pool","pools and the FromVTPool functions, and of the ResetVT and ReturnToVTPool",None)
    text("Strict","MarshalVTStrict, MarshalToVTStrict and MarshalToSizedBufferVTStrict",[r'Marshal(?:To|ToSizedBuffer)?VTStrict\([^)]*\) \([^)]*\)'])

def text(what,title,meths):
    o=open(f"{OUT}/GoText{what}.v","w")
    o.write(f"""(** Written by tools/gotext.py.  The text of the {title} methods in the *_vtproto.pb.go
    files cited, as committed in /repo. *)
From Coq Require Import String List.
Import ListNotations.
Open Scope string_scope.

""")
    p={"Strict":"x","Unsafe":"v","Clone":"y","Pool":"o"}.get(what,what[0].lower())
    for name,path in FILES+KNOWN:
        vt=open(f"{REPO}/{path}_vtproto.pb.go").read()
        fs=functions(vt,meths[0]) if meths else [m.group(0) for m in re.finditer(
            r'^(?:var vtprotoPool_\w+ = |func \(m \*\w+\) (?:ResetVT|ReturnToVTPool)\(\) |func \w+FromVTPool\(\) )[^\n]*\{.*?^\}\n',vt,re.M|re.S)]
        # pieces of at most 8000 characters, cut at the ends of lines
        pieces=[""]
        for line in "".join(fs).splitlines(True):
            if len(pieces[-1])+len(line)>8000: pieces.append("")
            pieces[-1]+=line
        o.write(f"(** /repo/{path}_vtproto.pb.go *)\n")
        if pieces==[""]: pieces=[]
        for k,t in enumerate(pieces):
            o.write(f"Definition {p}_{name}_{k+1} : string :=\n{coqstr(t)}.\n")
        o.write(f"Definition {p}_{name} : list string := [{'; '.join(f'{p}_{name}_{k+1}' for k in range(len(pieces)))}].\n\n")
    o.close()

def helpers():
    """GoTextHelpers.v: the functions of protohelpers.go and KeySize"""
    o=open(f"{OUT}/GoTextHelpers.v","w")
    o.write("""(** Written by tools/gotext.py.  The text of the functions of /repo/protohelpers/protohelpers.go and
    of KeySize (/repo/generator/helpers.go), as committed in /repo. *)
From Coq Require Import String.
Open Scope string_scope.

""")
    for path,names in [("protohelpers/protohelpers.go",["EncodeVarint","SizeOfVarint","SizeOfZigzag","Skip"]),("generator/helpers.go",["KeySize"])]:
        src=open(f"{REPO}/{path}").read()
        for n in names:
            m=re.search(r'^func '+n+r'\(.*?^\}\n',src,re.M|re.S)
            line=src[:m.start()].count("\n")+1
            o.write(f"(** /repo/{path}:{line} *)\nDefinition text_{n} : string :=\n{coqstr(m.group(0))}.\n\n")
    o.close()

def rpc():
    """GoTextRpc.v: the stubs of testproto/grpc"""
    o=open(f"{OUT}/GoTextRpc.v","w")
    path="testproto/grpc/grpc_vtproto.pb.go"
    src=open(f"{REPO}/{path}").read()
    a=src.index("const _ = grpc.SupportPackageIsVersion7")
    b=src.index("func (m *LocalTestMessageRequest) MarshalVT()")
    txt="".join(l+"\n" for l in src[a:b].split("\n") if not l.strip().startswith("//"))
    o.write(f"""(** Written by tools/gotext.py.  The text of the gRPC stubs in /repo/{path}, from line
    {src[:a].count(chr(10))+1} to line {src[:b].count(chr(10))}, as committed in /repo, without comments. *)
From Coq Require Import String.
Open Scope string_scope.

Definition text_grpc : string :=
{coqstr(txt)}.
""")
    o.close()

if __name__=="__main__":
    main()
    helpers()
    rpc()
