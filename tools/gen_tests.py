#!/usr/bin/env python3
"""Translates the check_ok!/check_err! cases of /repo/tests/parser_tests.rs into
a Coq file that runs them on the model."""
import re,sys
src=open('/repo/tests/parser_tests.rs').read()
src=re.sub(r'(?m)^\s*//.*$','',src) # one case is commented out in the source
pos=src.index('fn bytestring_parser')
rx=re.compile(r'check_(ok|err)!\(\s*parser::(\w+)Parser,\s*(?:r#"(.*?)"#|r"([^"]*)"|"((?:\\.|[^"\\])*)")\s*,?\s*\)',re.S)
cases=[]
for m in rx.finditer(src,pos):
    kind,nt=m.group(1),m.group(2)
    if m.group(3) is not None: s=m.group(3)
    elif m.group(4) is not None: s=m.group(4)
    else:
        s=m.group(5)
        s=re.sub(r'\\\n\s*','',s)
        s=s.replace('\\"','"').replace('\\n','\n').replace('\\t','\t').replace('\\\\','\\')
    cases.append((kind,nt,s,src.count('\n',0,m.start())+1))
tot=len(re.findall(r'check_(?:ok|err)!\(',src[pos:]))
print(len(cases),'of',tot)
o=open(sys.argv[1],'w')
o.write('''(** GENERATED by tools/gen_tests.py from /repo/tests/parser_tests.rs: the
    project's own acceptance tests, run on the model.  These are tests of the
    model's fidelity, not proofs of properties. *)
From Verif Require Import Chars Lexer Ast Grammar Cfg Tables Parser.

Definition accepts (A : nt) (s : string) : bool :=
  match parse_str U_none A (lit s) with POk _ => true | _ => false end.
Definition rejects (A : nt) (s : string) : bool :=
  match parse_str U_none A (lit s) with PErrToken _ | PErrEof => true | _ => false end.

''')
for kind,fn in (('ok','accepts'),('err','rejects')):
    o.write(f'Example parser_tests_{kind} : forallb (fun b => b) [\n')
    o.write(';\n'.join(f'  (* {ln} *) {fn} {nt} "{s.replace(chr(34),chr(34)*2)}"' for k,nt,s,ln in cases if k==kind))
    o.write('\n] = true.\nProof. vm_compute. reflexivity. Qed.\n\n')
