#!/usr/bin/env python3
"""Transcribes data from /repo into Coq source (run by hand, output committed).

  rocq/theories/Data/TableRaw.v      lookupIndices / lookupProps of property_table_raw.go
  rocq/theories/Data/Ucd*.v          byte-exact copies of the UCD text files
  rocq/theories/Data/TableRawGo.v    byte-exact copy of property_table_raw.go
  rocq/theories/Data/GoSources.v     byte-exact copies of the Go files of the library
  rocq/theories/Data/UcdSources.v    and of ucdparse
  rocq/theories/Spec/UcdRanges.v     the property ranges those files list
"""
import re, os
R='/repo/textseg/internal/charprops/'
O=os.path.join(os.path.dirname(os.path.abspath(__file__)),'../rocq/theories/')
os.makedirs(O+'Data',exist_ok=True); os.makedirs(O+'Spec',exist_ok=True)

# ---- tables
src=open(R+'property_table_raw.go').read()
a,b=src.split('var lookupProps')
strip=lambda s:[int(x,16) for x in re.findall(r'0x[0-9a-f]+(?=,)',re.sub(r'//.*','',s.split('{',1)[1]))]
I=strip(a);P=strip(b)
assert len(I)%64==0 and len(P)%64==0
def blocks(name,xs,cite):
    s="(* %s *)\nDefinition %s : list (list N) := [\n"%(cite,name)
    bl=[]
    for i in range(0,len(xs),64):
        rows=["; ".join("0x%02x"%v for v in xs[j:j+8]) for j in range(i,i+64,8)]
        bl.append("  (* block 0x%04x *)\n  [ "%(i>>6)+";\n    ".join(rows)+" ]")
    return s+";\n".join(bl)+"\n]%N.\n"
nl=src[:src.index('var lookupProps')].count('\n')+1
tot=src.count('\n')
with open(O+'Data/TableRaw.v','w') as f:
    f.write("(* Generated by tools/gen.py from textseg/internal/charprops/property_table_raw.go. *)\nFrom Coq Require Import List NArith.\nImport ListNotations.\n\n")
    f.write(blocks('lookupIndices_blocks',I,'property_table_raw.go 5-%d: var lookupIndices = [...]uint8{...}, in blocks of 64'%(nl-1)))
    f.write("\n")
    f.write(blocks('lookupProps_blocks',P,'property_table_raw.go %d-%d: var lookupProps = [...]CharProperties{...}, in blocks of 64'%(nl,tot)))

# ---- text files
def text(fn,mod,name):
    data=open(fn,'rb').read()
    assert b'\r' not in data and data.endswith(b'\n')
    lines=data.split(b'\n')[:-1]
    n=40
    chunks=[b'\n'.join(lines[i:i+n])+b'\n' for i in range(0,len(lines),n)]
    assert b''.join(chunks)==data
    with open(O+'Data/%s.v'%mod,'wb') as f:
        f.write(("(* Generated by tools/gen.py: byte-exact copy of %s\n   (string literals: a doubled quote stands for one quote). *)\n"%fn[len('/repo/'):]).encode())
        f.write(b"From Coq Require Import List String.\nImport ListNotations.\nLocal Open Scope string_scope.\n\n")
        for i,c in enumerate(chunks):
            f.write(b"Definition c%d : string := \""%i+c.replace(b'"',b'""')+b"\".\n")
        f.write(("\nDefinition %s : list string := [\n  "%name).encode()+b";\n  ".join(b"c%d"%i for i in range(len(chunks)))+b"\n].\n")
text(R+'ucd/auxiliary/GraphemeBreakProperty.txt','UcdGraphemeBreakProperty','GraphemeBreakProperty_txt')
text(R+'ucd/emoji/emoji-data.txt','UcdEmojiData','emoji_data_txt')
text(R+'ucd/DerivedCoreProperties.txt','UcdDerivedCoreProperties','DerivedCoreProperties_txt')
text(R+'ucd/auxiliary/GraphemeBreakTest.txt','UcdGraphemeBreakTest','GraphemeBreakTest_txt')

text(R+'property_table_raw.go','TableRawGo','property_table_raw_go')

# ---- Go sources
with open(O+'Data/GoSources.v','wb') as f:
    f.write(b"(* Generated by tools/gen.py: byte-exact copies of the Go files of the library\n   (string literals: a doubled quote stands for one quote). *)\nFrom Coq Require Import String.\nLocal Open Scope string_scope.\n")
    for fn in ['textseg/grapheme_clusters.go','textseg/internal/machine/state.go','textseg/internal/charprops/property_table.go','textseg/internal/charprops/properties.go','autoversion/textseg/unicode17.go']:
        data=open('/repo/'+fn,'rb').read()
        assert b'\r' not in data and all(x<128 for x in data)
        f.write(b"\n(* %s *)\nDefinition %s : string := \""%(fn.encode(),os.path.basename(fn).replace('.','_').encode())+data.replace(b'"',b'""')+b"\".\n")

with open(O+'Data/UcdSources.v','wb') as f:
    f.write(b"(* Generated by tools/gen.py: byte-exact copies of the Go files of ucdparse\n   (string literals: a doubled quote stands for one quote). *)\nFrom Coq Require Import String.\nLocal Open Scope string_scope.\n")
    for fn in ['textseg/internal/charprops/ucdparse/ucd_scan.go','textseg/internal/charprops/ucdparse/testdata_scan.go']:
        data=open('/repo/'+fn,'rb').read()
        assert b'\r' not in data
        f.write(b"\n(* %s *)\nDefinition %s : string := \""%(fn.encode(),os.path.basename(fn).replace('.','_').encode())+data.replace(b'"',b'""')+b"\".\n")

# ---- ranges
def parse(fn):
    for l in open(fn,'rb'):
        l=l.rstrip(b'\n').split(b'#')[0].decode('latin1')
        if ';' not in l: continue
        r,f=l.split(';',1); r=r.strip(); fs=[x.strip() for x in f.split(';')]
        lo,hi=r.split('..') if '..' in r else (r,r)
        yield int(lo,16),int(hi,16),fs
def emit(f,name,ty,rows,cite):
    f.write("(* %s *)\nDefinition %s : list (N * N * %s) := [\n  "%(cite,name,ty))
    f.write(";\n  ".join("(0x%04X, 0x%04X, %s)"%x for x in rows)+"\n]%N.\n\n")
with open(O+'Spec/UcdRanges.v','w') as f:
    f.write("""(* Generated by tools/gen.py from the UCD files under textseg/internal/charprops/ucd:
   every data line, in file order, as (first, last, value), both ends inclusive. *)
From Coq Require Import List NArith.
From Verif Require Import Spec.Classes.
Import ListNotations.

""")
    g={'CR':'CR','LF':'LF','Control':'Control','Extend':'Extend','ZWJ':'ZWJ','Regional_Indicator':'Regional_Indicator','Prepend':'Prepend','SpacingMark':'SpacingMark','L':'L','V':'V','T':'T','LV':'LV','LVT':'LVT'}
    emit(f,'gcb_ranges','GCB',[(a,b,g[fs[0]]) for a,b,fs in parse(R+'ucd/auxiliary/GraphemeBreakProperty.txt')],'auxiliary/GraphemeBreakProperty.txt: all lines')
    emit(f,'extpict_ranges','unit',[(a,b,'tt') for a,b,fs in parse(R+'ucd/emoji/emoji-data.txt') if fs[0]=='Extended_Pictographic'],'emoji/emoji-data.txt: lines "; Extended_Pictographic"')
    ic={'Consonant':'InCB_Consonant','Extend':'InCB_Extend','Linker':'InCB_Linker'}
    emit(f,'incb_ranges','InCB',[(a,b,ic[fs[1]]) for a,b,fs in parse(R+'ucd/DerivedCoreProperties.txt') if fs[0]=='InCB'],'DerivedCoreProperties.txt: lines "; InCB; value"')
