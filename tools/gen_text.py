"""Writes rocq/theories/GenText.v: the quote! templates of derive/src/gen.rs.

Usage: python3 tools/gen_text.py rocq/theories/GenText.v
"""
import re,sys
F='derive/src/gen.rs'
L=open('/repo/'+F).read().split('\n')
def blocks():
    """every multi-line quote! { ... }: first and last line of the inside"""
    out=[]
    for i,l in enumerate(L):
        if re.search(r'quote! \{$',l):
            ind=re.match(r'\s*',l).group(0); j=i+1
            while not (L[j].startswith(ind+'}')): j+=1
            out.append((i+2,j))
    return out
NAMES={'get_field_name_raw(&self)':'raw','get_field_name_raw_mut(&mut self)':'raw_mut','for _ in 0..vec.capacity()':'vec_get',
 'assert!(vals.len() <= len)':'check_len','.copy_from_slice(vals)':'copy_bytes','let val = vals[i];':'copy_loop','#check_len':'vec_set',
 'use libpacket_core::FromPacket;':'pkts_get','let mut packet = #inner_ty_packet_mut':'pkts_set','val.to_primitive_values()':'misc_set',
 '#ty::new(#(#get_args,)*)':'misc_get','pub fn populate(':'populate','pub const fn minimum_packet_size':'impl',
 'fn #get_name(_self':'get_arg','pub fn #get_name(&self) -> #ty {':'get','fn #set_name(_self':'set_arg','pub fn #set_name(&mut self, val: #ty)':'set',
 'libpacket_core::PacketSize for #name_mut':'size_impls','libpacket_core::#trait_name':'packet_trait','pub struct #iterator':'iterable',
 'fn from_packet(&self)':'converters'}
def coq(s): return '"'+s.replace('"','""')+'"'
if __name__=='__main__':
    o=['''(** Source text: the templates ([quote!] bodies) from which derive/src/gen.rs builds the
    code it emits, copied from /repo without changes.  This file is data; EmitGen.v fills
    the templates. *)
From Coq Require Import String.
Open Scope string_scope.
''']
    used=set()
    for a,b in blocks():
        t='\n'.join(L[a-1:b])
        m=[n for k,n in NAMES.items() if k in t]
        if not m or a>760: continue
        assert len(m)==1 and m[0] not in used,(a,b,m)
        used.add(m[0])
        o.append('(** %s:%d-%d *)\nDefinition gen_%s : string :=\n%s.\n'%(F,a,b,m[0],coq(t)))
    assert used==set(NAMES.values()),set(NAMES.values())-used
    open(sys.argv[1],'w').write('\n'.join(o))
