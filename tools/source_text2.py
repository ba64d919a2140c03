"""Writes rocq/theories/CrateText2.v: impl blocks, functions of the derive crate, constants
and tuple structs copied from /repo.

Usage: python3 tools/source_text2.py rocq/theories/CrateText2.v
"""
import re,sys,os
sys.path.insert(0,os.path.dirname(os.path.abspath(__file__)))
from source_text import lines,item,coq
U='derive/src/util.rs'; G='derive/src/gen.rs'; M='core/src/macaddr.rs'
def find(f,pat,start=0):
    L=lines(f)
    for i in range(start,len(L)):
        if re.match(pat,L[i]): return i
    raise Exception((f,pat))
def block(f,pat,start=0):
    """lines from the one matching pat to the closing brace at the same indentation"""
    L=lines(f); i=find(f,pat,start); ind=re.match(r'\s*',L[i]).group(0); j=i
    while L[j]!=ind+'}': j+=1
    return i,j
def fn(f,n): i,j=block(f,r'(pub )?fn %s\('%n); return f,i,j
def im(f,h,start=0): i,j=block(f,r'\s*impl(<.*?>)? %s \{'%h,start); return f,i,j
def mod(f,n,start=0): i,j=block(f,r'\s*pub mod %s \{'%n,start); return f,i,j
def radix():
    i=find(U,r'macro_rules! radix_fn'); j=find(U,r'radix_fn!\(radix16_u64')
    return U,i,j
disp=lambda t:r'(std::)?fmt::Display for %s'%t
FUNS=[('derive',[im(U,disp('Endianness')),im(U,disp('GetOperation')),radix(),im(U,disp('SetOperation'))]+
  [fn(U,n) for n in 'get_mask get_shiftl get_shiftr operations mask_high_bits to_mutator to_little_endian'.split()]+
  [fn(G,n) for n in ['gen_set_ops','gen_get_ops']])]
def newtype(f,t,start=0,d=False):
    r=[im(f,t,start),im(f,'PrimitiveValues for '+t,start)]
    return r+[im(f,disp(t),start)] if d else r
S=lambda m:'src/%s.rs'%m
q=S('quic')
reply=find(S('icmp'),'pub mod echo_reply'); request=find(S('icmp'),'pub mod echo_request')
NEW=[('ethernet',[('EtherType',1)],['EtherTypes']),('ip',[('IpNextHeaderProtocol',1)],['IpNextHeaderProtocols']),
 ('arp',[('ArpOperation',0),('ArpHardwareType',0)],['ArpOperations','ArpHardwareTypes']),
 ('vlan',[('ClassOfService',0)],['ClassesOfService']),('ipv4',[('Ipv4OptionNumber',0)],['Ipv4OptionNumbers','Ipv4Flags']),
 ('tcp',[('TcpOptionNumber',0)],['TcpOptionNumbers','TcpFlags']),
 ('icmp',[('IcmpType',0),('IcmpCode',0)],['IcmpTypes']),
 ('icmpv6',[('Icmpv6Type',0),('Icmpv6Code',0)],['Icmpv6Types']),
 ('ndp',[('NdpOptionType',0)],['Icmpv6Codes','NdpOptionTypes','RouterAdvertFlags','NeighborAdvertFlags']),
 ('quic',[('HeaderForm',1),('FixedBit',1),('LongPacketType',1),('Version',1),('FrameType',1)],['HeaderForms','LongPacketTypes','FrameTypes'])]
F={'ndp':S('icmpv6')}
STRUCTS=[];CONSTS=[]
def struct(f,t,start=0):
    i=find(f,r'\s*pub struct %s\('%t,start); return f,i,i
for m,ts,ms in NEW:
    f=F.get(m,S(m)); b=[]
    for t,d in ts:
        b+=newtype(f,t,0,d); STRUCTS.append((m,t,struct(f,t)))
    if m=='quic': b=[im(f,"QuicPacket<'a>"),im(f,disp("QuicPacket<'a>")),im(f,"Frame<'a>"),im(f,disp("Frame<'a>"))]+b
    if m=='tcp': b=[im(f,'TcpOption')]+b
    FUNS.append((m,b))
    CONSTS.append((m,[mod(f,x) for x in ms]))
for m,start in (('echo_reply',reply),('echo_request',request)):
    f=S('icmp'); b=[]
    for t in ('Identifier','SequenceNumber'):
        b+=newtype(f,t,start); STRUCTS.append((m,t,struct(f,t,start)))
    FUNS.append((m,b)); CONSTS.append((m,[mod(f,'IcmpCodes',start)]))
for m in ('destination_unreachable','time_exceeded'):
    f=S('icmp'); CONSTS.append((m,[mod(f,'IcmpCodes',find(f,'pub mod '+m))]))
FUNS.append(('mac',[im(M,h) for h in ['MacAddr','From<EtherAddr> for MacAddr','From<MacAddr> for EtherAddr','PartialEq<EtherAddr> for MacAddr',
  'fmt::Display for MacAddr','fmt::Debug for MacAddr','ParseMacAddrErr','fmt::Display for ParseMacAddrErr','FromStr for MacAddr']]))
STRUCTS.append(('mac','MacAddr',struct(M,'MacAddr')))
i=find(M,'pub const ETHER_ADDR_LEN'); CONSTS.append(('mac',[(M,i,i),(M,find(M,'const LOCAL_ADDR'),find(M,'const LOCAL_ADDR')),(M,find(M,'const MULTI'),find(M,'const MULTI'))]))
if __name__=='__main__':
    o=['''(** Source text: functions of the derive crate, impl blocks, modules of constants and tuple
    structs of the crates, copied from /repo without changes.  This file is data; RustAst.v
    reads it. *)
From Coq Require Import String List.
Import ListNotations.
Open Scope string_scope.
''']
    def emit(name,f,i,j):
        t='\n'.join(lines(f)[i:j+1])
        o.append('(** %s:%d-%d *)\nDefinition %s : string :=\n%s.\n'%(f,i+1,j+1,name,coq(t)[:-7]))
    def table(title,name,rows):
        o.append('(** %s *)\nDefinition %s : list (string * list string) :=\n  ['%(title,name)+';\n   '.join('("%s", [%s])'%(m,'; '.join(ns)) for m,ns in rows)+'].\n')
    o.append('(** ** Functions *)\n'); rows=[]
    for m,b in FUNS:
        ns=[]
        for k,(f,i,j) in enumerate(b):
            n='code_%s_%d'%(m,k); emit(n,f,i,j); ns.append(n)
        rows.append((m,ns))
    table('The texts of a module.','code_texts',rows)
    o.append('(** ** Constants *)\n'); rows=[]
    for m,b in CONSTS:
        ns=[]
        for k,(f,i,j) in enumerate(b):
            n='const_%s_%d'%(m,k); emit(n,f,i,j); ns.append(n)
        rows.append((m,ns))
    table('The texts of a module.','const_texts',rows)
    o.append('(** ** Tuple structs *)\n'); rows=[]
    for m,t,(f,i,j) in STRUCTS:
        n='tuple_%s_%s'%(m,t); emit(n,f,i,j); rows.append((m,t,n))
    o.append('(** Module, name and text. *)\nDefinition tuple_texts : list (string * string * string) :=\n  ['+';\n   '.join('("%s", "%s", %s)'%r for r in rows)+'].\n')
    open(sys.argv[1],'w').write('\n'.join(o))
