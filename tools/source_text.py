"""Writes rocq/theories/CrateText.v: functions and packet structs copied from /repo.

Usage: python3 tools/source_text.py rocq/theories/CrateText.v
"""
import re,sys
R='/repo/'
def lines(f): return open(R+f).read().split('\n')
def item(f, start_re, nth=0):
    """lines from the one matching start_re to the matching closing brace at the same indentation"""
    L=lines(f); idx=[i for i,l in enumerate(L) if re.match(start_re,l)]
    i=idx[nth]; ind=re.match(r'\s*',L[i]).group(0)
    j=i
    while not (L[j].startswith(ind+'}') and not L[j].startswith(ind+'} ')): j+=1
    return i+1,j+1,'\n'.join(L[i:j+1])
def coq(s): return '"'+s.replace('"','""')+'"%string'
FNS=[('quic',n) for n in 'varint_length varint packet_number n_varints'.split()]+\
[('ipv4',n) for n in 'ipv4_options_length ipv4_payload_length ipv4_option_length ipv4_option_payload_length checksum'.split()]+\
[('ipv6',n) for n in 'ipv6_extension_length routing_extension_length'.split()]+\
[('tcp',n) for n in 'tcp_option_length tcp_option_payload_length tcp_options_length ipv4_checksum ipv4_checksum_adv ipv6_checksum ipv6_checksum_adv'.split()]+\
[('udp',n) for n in 'ipv4_checksum ipv4_checksum_adv ipv6_checksum ipv6_checksum_adv'.split()]+\
[('icmp','checksum'),('icmpv6','checksum')]+\
[('util',n) for n in 'checksum finalize_checksum ipv4_checksum ipv4_word_sum ipv6_checksum ipv6_word_sum sum_be_words'.split()]+\
[('u64','octets',0),('u32','octets',1),('u16','octets',2),('u8','octets',3)]+\
[('mac',n) for n in 'new is_zero is_universal is_local is_unicast is_multicast is_broadcast'.split()]
FILE={'mac':'core/src/macaddr.rs','u64':'src/util.rs','u32':'src/util.rs','u16':'src/util.rs','u8':'src/util.rs'}
def fns():
    out=[]
    for x in FNS:
        f=FILE.get(x[0],'src/%s.rs'%x[0]); n=x[1]
        k=x[2] if len(x)>2 else 0
        if n=='octets': k+=0
        ind=r'\s*' if x[0] in FILE else ''
        pat=ind+r'(pub )?fn %s\((?!.*;$)'%n
        a,b,t=item(f,pat,k)
        out.append((x[0],n,f,a,b,t))
    return out
def structs():
    out=[]
    import glob
    for f in ['ethernet','vlan','arp','ipv4','ipv6','udp','tcp','gre','icmp','icmpv6','quic']:
        L=lines('src/%s.rs'%f)
        for i,l in enumerate(L):
            if re.match(r'\s*#\[derive\(.*Packet\)\]',l):
                ind=re.match(r'\s*',l).group(0)
                j=i
                while L[j]!=ind+'}': j+=1
                t='\n'.join(L[i:j+1])
                n=re.search(r'struct (\w+)',t).group(1)
                out.append((n,'src/%s.rs'%f,i+1,j+1,t))
    return out
if __name__=='__main__':
    o=['''(** Source text: functions and packet structs of the crate, copied from /repo without
    changes.  This file is data; RustSyntax.v and RustItem.v read it. *)
From Coq Require Import String List.
Import ListNotations.
Open Scope string_scope.

(** ** Functions *)
''']
    tab=[]
    for mod,n,f,a,b,t in fns():
        o.append('(** %s:%d-%d *)\nDefinition fn_%s_%s : string :=\n%s.\n'%(f,a,b,mod,n,coq(t)[:-7]))
        tab.append('("%s", "%s", fn_%s_%s)'%(mod,n,mod,n))
    o.append('(** Module (or, for methods, type), name and text. *)\nDefinition crate_texts : list (string * string * string) :=\n  ['+';\n   '.join(tab)+'].\n')
    o.append('(** ** Packet structs *)\n')
    stab=[]
    for n,f,a,b,t in structs():
        o.append('(** %s:%d-%d *)\nDefinition struct_%s : string :=\n%s.\n'%(f,a,b,n,coq(t)[:-7]))
        stab.append('("%s", "%s", struct_%s)'%(f[4:-3],n,n))
    o.append('(** Module, name and text. *)\nDefinition crate_structs : list (string * string * string) :=\n  ['+';\n   '.join(stab)+'].\n')
    open(sys.argv[1],'w').write('\n'.join(o))
