#!/usr/bin/env python3
"""Compare the productions of /repo/src/parser/parser.lalrpop with Grammar.v.

For every non terminal: the same alternatives in the same order, each with the
same symbols (terminals are compared through the [extern] token table), the
same placement of @L/@R (start first, end last, unless listed in ODD), the same
variants constructed by the action, and the names bound used in the same order.
Prints the differences; exit code 1 if there are any."""
import re, sys, os
HERE = os.path.dirname(os.path.abspath(__file__))
src = open('/repo/src/parser/parser.lalrpop').read()
coq = open(os.path.join(HERE, '../rocq/theories/Grammar.v')).read()

# ---- lalrpop side ----
# strip comments, not inside string literals
out, i = [], 0
while i < len(src):
    m = re.match(r'r#".*?"#|r"[^"]*"|"[^"]*"', src[i:], re.S)
    if m: out.append(m.group(0)); i += len(m.group(0)); continue
    if src.startswith('//', i):
        i = src.index('\n', i); continue
    out.append(src[i]); i += 1
src = ''.join(out)
ext = src[src.index('enum lexer::Token'):]
table = {}
for m in re.finditer(r'(r#".*?"#|r"[^"]*"|"[^"]*")\s*=>\s*lexer::Token::(\w+)', ext):
    table[m.group(1)] = 'K' + m.group(2)
body = src[src.index('pub ByteString'):]

def top_split(s, seps):
    """split at separators outside of brackets and strings"""
    parts, cur, depth, i = [], '', 0, 0
    while i < len(s):
        m = re.match(r'r#".*?"#|r"[^"]*"|"[^"]*"|=>', s[i:], re.S)
        if m and not (m.group(0) in seps and depth == 0):
            cur += m.group(0); i += len(m.group(0)); continue
        hit = next((x for x in seps if s.startswith(x, i)), None)
        if hit and depth == 0:
            parts.append(cur); cur = ''; i += len(hit); continue
        if s[i] in '({[': depth += 1
        if s[i] in ')}]': depth -= 1
        cur += s[i]; i += 1
    parts.append(cur)
    return parts

def atoms(rhs):
    """the symbols of a right hand side: (bound name or None, symbol, repeat)"""
    res, i = [], 0
    rhs = rhs.strip()
    tok = re.compile(r'\s*(<\s*(?:(mut\s+)?(\w+)\s*:)?\s*(@L|@R|r#".*?"#|r"[^"]*"|"[^"]*"|\w+)\s*([*+?]?)\s*>|(@L|@R|r#".*?"#|r"[^"]*"|"[^"]*"|\w+)\s*([*+?]?))', re.S)
    while i < len(rhs):
        m = tok.match(rhs, i)
        if not m: raise SystemExit('cannot read %r' % rhs[i:])
        if m.group(4): res.append((m.group(3), m.group(4), m.group(5)))
        else: res.append((None, m.group(6), m.group(7)))
        i = m.end()
        while i < len(rhs) and rhs[i].isspace(): i += 1
    return res

rust = {}
order = []
i = 0
for m in re.finditer(r'^[ \t]*(?:pub\s+)?(\w+)\s*:(?!:)\s*([^={}]+?)=\s*(?=[{<])', body, re.M):
    name = m.group(1)
    j = m.end()
    if body[j] == '{':
        depth, k = 0, j
        while True:
            mm = re.match(r'r#".*?"#|r"[^"]*"|"[^"]*"', body[k:], re.S)
            if mm: k += len(mm.group(0)); continue
            if body[k] == '{': depth += 1
            if body[k] == '}':
                depth -= 1
                if depth == 0: break
            k += 1
        alts = [a for a in top_split(body[j+1:k], [',']) if a.strip()]
    else:
        k = body.index(';', j)
        alts = [body[j:k]]
    rust[name] = alts
    order.append(name)

# ---- coq side ----
coq_prods = {}
coq_nc = re.sub(r'\(\*.*?\*\)', '', coq, flags=re.S)
for m in re.finditer(r'Definition prods_(\w+) : list \(production (\w+)\) :=(.*?)\.\n(?=\n|Definition|Local|\Z)', coq_nc, re.S):
    name, text = m.group(1), m.group(3)
    ps = re.split(r'mkprod \w+ ', text)[1:]
    lst = []
    for p in ps:
        mm = re.match(r'\[(.*?)\]\s*\(?(.*)', p, re.S)
        syms = []
        for s in [x.strip() for x in mm.group(1).split(';') if x.strip()]:
            a = re.fullmatch(r't (\w+)', s)
            if a: syms.append((a.group(1), '')); continue
            a = re.fullmatch(r'n (\w+)', s)
            if a: syms.append((a.group(1), '')); continue
            a = re.fullmatch(r'(Star|Plus|Opt) \((?:Nt|Tm) (\w+)\)', s)
            if a: syms.append((a.group(2), {'Star': '*', 'Plus': '+', 'Opt': '?'}[a.group(1)])); continue
            raise SystemExit('coq symbol %r in %s' % (s, name))
        lst.append((syms, mm.group(2)))
    coq_prods[name] = lst

bad = 0
def complain(*a):
    global bad
    bad += 1
    print(*a)
if set(rust) != set(coq_prods): complain('non terminals differ', set(rust) ^ set(coq_prods))
total = odd = 0
for name in order:
    alts = rust[name]
    cps = coq_prods.get(name, [])
    if len(alts) != len(cps): complain(name, 'number of alternatives', len(alts), len(cps)); continue
    for k, (alt, (syms, act)) in enumerate(zip(alts, cps)):
        total += 1
        parts = top_split(alt, ['=>'])
        rhs = parts[0]; action = '=>'.join(parts[1:])
        at = atoms(rhs)
        rs = [(table.get(s, s), r) for _, s, r in at if not s.startswith('@')]
        if rs != syms: complain(name, k, 'symbols', rs, syms)
        marks = [(p, s) for p, (_, s, _) in enumerate(at) if s.startswith('@')]
        std = marks in ([(0, '@L'), (len(at) - 1, '@R')], [])
        if not std: odd += 1; print('note:', name, k, 'positions taken at', marks, 'of', len(at))
        # the values of the symbols, in the order in which the action uses them
        names = [b for b, x, _ in at if not x.startswith('@')]
        used = [w for w in re.findall(r'\b[a-z_]\w*\b', re.sub(r'\b\w+\s*:(?!:)', ' ', action))]
        ro = []
        for w in used:
            if w in names and names.index(w) not in ro: ro.append(names.index(w))
        mm = re.match(r"fun s e '(\(.*?\)+) =>(.*)", act.strip().lstrip('('), re.S)
        pat = re.findall(r'\w+', mm.group(1))[:-1]
        co = []
        for w in re.findall(r'\b[a-z]\w*\b', mm.group(2)):
            if w in pat and pat.index(w) not in co: co.append(pat.index(w))
        if ro != co: print('order:', name, k, ro, co, '|', ' '.join(action.split()), '|', ' '.join(mm.group(2).split()))
        # variants constructed
        rv = re.findall(r'Node\w+::(\w+)', action)
        cv = re.findall(r'\b([A-Z]\w*)\b', act)
        for v in rv:
            if v in ('from', 'new'): continue
            if not any(c.endswith(v) or v in c or c in v for c in cv): complain(name, k, 'variant', v, 'not in', cv)
print('%d non terminals, %d productions compared, %d with unusual positions, %d differences' % (len(order), total, odd, bad))
sys.exit(1 if bad else 0)
