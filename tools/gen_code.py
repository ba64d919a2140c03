"""Writes rocq/theories/GenCode.v: the functions of derive/src/gen.rs and lib.rs that
assemble the emitted code.

Usage: python3 tools/gen_code.py rocq/theories/GenCode.v
"""
import re,sys
def lines(f): return open('/repo/'+f).read().split('\n')
def item(f,start):
    """first and last line of the item whose first line starts with [start]"""
    L=lines(f)
    i=[k for k,l in enumerate(L) if l.startswith(start)]
    assert len(i)==1,(f,start,i)
    j=i[0]
    while L[j]!='}': j+=1
    return i[0]+1,j+1,'\n'.join(L[i[0]:j+1])
G='derive/src/gen.rs'
ITEMS=[('derive/src/lib.rs','fn generate_packet','generate_packet')]+[(G,p+'fn '+n+'(',n) for p,n in
 [('pub ','packet_struct'),('pub ','packet_impls'),('','current_offset'),('','packet_impl'),('','gen_accessor'),('','gen_mutator'),
  ('pub ','packet_size_impls'),('pub ','packet_trait_impls'),('','impl_packet_trait_for'),('pub ','iterables'),('pub ','converters'),
  ('pub ','debug_impls')]]
def coq(s): return '"'+s.replace('"','""')+'"'
if __name__=='__main__':
    o=['''(** Source text: the functions of the derive crate that assemble the code it emits, copied
    from /repo without changes.  This file is data; MacroEval.v reads and runs it. *)
From Coq Require Import String List.
Import ListNotations.
Open Scope string_scope.
''']
    for f,s,n in ITEMS:
        a,b,t=item(f,s)
        o.append('(** %s:%d-%d *)\nDefinition src_%s : string :=\n%s.\n'%(f,a,b,n,coq(t)))
    a,b,t=item('derive/src/parse.rs','impl Packet {')
    L=lines('derive/src/parse.rs')
    for n in ['packet_name','packet_name_mut']:
        i=[k for k in range(a-1,b) if L[k].startswith('    pub fn '+n+'(')][0]
        j=i
        while L[j]!='    }': j+=1
        o.append('(** derive/src/parse.rs:%d-%d *)\nDefinition src_%s : string :=\n%s.\n'%(i+1,j+1,n,coq('\n'.join(L[i:j+1]))))
    o.append('Definition macro_code : list string :=\n  [%s].\n'%';\n   '.join('src_'+n for n in [x[2] for x in ITEMS]+['packet_name','packet_name_mut']))
    open(sys.argv[1],'w').write('\n'.join(o))
