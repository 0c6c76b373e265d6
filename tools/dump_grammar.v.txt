From Verif Require Import Chars Lexer Ast Grammar Cfg.
Definition plus_atoms (l : list sym) : list bsym := flat_map (fun s => match s with Plus a | Star a => [BP a] | _ => [] end) l.
Definition all_plus := nodup bsym_eq_dec (flat_map (fun A => flat_map (fun p => plus_atoms (p_rhs p)) (prods A)) all_nts).
Definition all_syms := map BN all_nts ++ all_plus ++ map BS all_nts.
Definition dump := map (fun b => (bsym_code b, map (fun f => map bsym_code (f_rhs f)) (fprods b))) all_syms.
Set Printing Width 100000. Set Printing Depth 100000.
Eval vm_compute in dump.
Eval vm_compute in all_plus.
