"""Extracts the byte strings of the repository's own tests into Coq definitions
   (rocq/theories/ReplayData.v).  Run by hand; its output is committed."""
import re,sys
T='/repo/src/processor/tests.rs'
src=open(T).read().split('\n')
out=["(** * ReplayData: the messages of the repository's own tests, as written there.\n",
"    Made by tools/replay.py from src/processor/tests.rs and other test functions; every definition names the\n    file and line. *)",
"From Verif Require Import Base.","Local Open Scope string_scope.",""]
def emit(name,path,line,s):
    out.append("(** %s:%d *)"%(path,line))
    out.append('Definition %s : bytes := bstr "%s".'%(name,s.replace('"','""')))
fn=None; seen={}
for i,l in enumerate(src,1):
    m=re.match(r'\s*(?:pub )?fn (\w+)\(',l)
    if m: fn=m.group(1)
    m=re.match(r'\s*let (\w+) ?= ?b?r#"(.*)"#;?$',l)
    if m:
        emit("%s__%s"%(fn,m.group(1)),"processor/tests.rs",i,m.group(2))
for p in ['event_parsing/message.rs','event_parsing/mod.rs','event/sections/key_config.rs','event_message/event_msg_builder.rs','event/sections/seal.rs','query/query.rs']:
    fn=None
    for i,l in enumerate(open('/repo/src/'+p).read().split('\n'),1):
        m=re.match(r'\s*(?:pub )?fn (\w+)\(',l)
        if m: fn=m.group(1)
        m=re.match(r'\s*let (?:mut )?(\w+) ?(?::[^=]*)?= ?(?:signed_message\()?b?r#"(.*)"#',l)
        if m: emit("%s__%s__%d"%(fn,m.group(1),i),p,i,m.group(2))
open('/verif/rocq/theories/ReplayData.v','w').write("\n".join(out)+"\n")
