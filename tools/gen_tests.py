#!/usr/bin/env python3
"""Turn the Extract test tables of /repo/fasttld_test.go into Coq examples.

Usage: gen_tests.py > rocq/theories/RepoTests.v

The IDNA library is not modelled, so for each URL the table entry is used with the oracle
answer that the expected result implies (IDNA errors are kept as errors; punycode results
are read off the expected fields and only ASCII ones are emitted).
"""
import re, sys
src = open('/repo/fasttld_test.go', encoding='utf-8').read()

def tokens(s, i):
    """split a composite literal body starting after '{' into a tree"""
    out = []
    cur = ''
    while True:
        c = s[i]
        if c == '"':
            j = i + 1
            while s[j] != '"':
                j += 2 if s[j] == '\\' else 1
            out.append(('str', go_str(s[i+1:j]))); i = j + 1; continue
        if c == '`':
            j = s.index('`', i + 1)
            out.append(('str', s[i+1:j].encode())); i = j + 1; continue
        if s.startswith('//', i):
            i = s.index('\n', i); continue
        if c == '{':
            sub, i = tokens(s, i + 1)
            out.append(('node', sub)); continue
        if c == '}':
            return out, i + 1
        m = re.match(r'[A-Za-z_][\w.]*(\[\d+\])?', s[i:])
        if m:
            out.append(('id', m.group(0))); i += len(m.group(0)); continue
        if c in ':,+':
            out.append((c, c))
        i += 1

def go_str(lit):
    res = b''; i = 0
    simple = {'n': b'\n', 't': b'\t', 'r': b'\r', 'v': b'\v', 'f': b'\f', 'a': b'\a', 'b': b'\b', '\\': b'\\', '"': b'"', "'": b"'"}
    while i < len(lit):
        c = lit[i]
        if c == '\\':
            d = lit[i+1]
            if d in simple: res += simple[d]; i += 2
            elif d == 'x': res += bytes([int(lit[i+2:i+4], 16)]); i += 4
            elif d == 'u': res += chr(int(lit[i+2:i+6], 16)).encode(); i += 6
            elif d == 'U': res += chr(int(lit[i+2:i+10], 16)).encode(); i += 10
            else: raise Exception(lit)
        else:
            res += c.encode(); i += 1
    return res

def fields(node):
    d = {}; i = 0
    while i < len(node):
        k, v = node[i]
        if k == ',': i += 1; continue
        assert k == 'id' and node[i+1][0] == ':', node[i:i+3]
        key = v; i += 2
        vals = []
        while i < len(node) and node[i][0] != ',':
            vals.append(node[i]); i += 1
        d[key] = vals
    return d

def sval(vals):
    if vals is None: return b''
    out = b''
    for k, v in vals:
        if k == 'str': out += v
        elif k == '+': pass
        else: return None
    return out

errs = ['ErrOpeningBracket','ErrClosingBracket','ErrIncompleteBrackets','ErrInvalidIPv6','ErrTrailingAfterIPv6','ErrConsecutiveSeparators',None,'ErrInvalidChars','ErrEmptyDomain','ErrInvalidPort']
m = re.search(r'var errs = \[\.\.\.\]error\{(.*?)\n\}', src, re.S)
msgs = re.findall(r'errors\.New\("(.*?)"\)|(\w[\w.]*\(.*?\))|(\w+\.\w+)', m.group(1))
lines = [l.strip() for l in m.group(1).strip().split('\n')]
lines = [l for l in lines if l and not l.startswith('//')]
table = {'opening square bracket is not first character of hostname':'ErrOpeningBracket',
 'closing square bracket present but no opening square bracket':'ErrClosingBracket',
 'incomplete square bracket pair':'ErrIncompleteBrackets','invalid IPv6 address':'ErrInvalidIPv6',
 'invalid trailing characters after IPv6 address':'ErrTrailingAfterIPv6',
 'invalid consecutive label separators on left-hand side of a label':'ErrConsecutiveSeparators',
 'invalid characters in hostname':'ErrInvalidChars','empty domain':'ErrEmptyDomain','invalid port':'ErrInvalidPort'}
err_of = []
for l in lines:
    mm = re.match(r'errors\.New\("(.*)"\)', l)
    err_of.append(('msg', mm.group(1)) if mm else ('expr', l))

def coq_bytes(b):
    return '[' + ';'.join(str(x) for x in b) + ']'

cases = []
for name in re.findall(r'var (\w+) = \[\]extractTest\{', src):
    i = src.index('var %s = []extractTest{' % name) + len('var %s = []extractTest{' % name)
    node, _ = tokens(src, i)
    for k, v in node:
        if k != 'node': continue
        f = fields(v)
        up = fields([x for x in f['urlParams'] if x[0] == 'node'][0][1])
        ex = fields([x for x in f.get('expected', [('node', [])]) if x[0] == 'node'][0][1])
        url = sval(up.get('URL'))
        e = None
        if 'err' in f:
            e = ''.join(str(x[1]) for x in f['err'])
        cases.append(dict(table=name, priv=('includePrivateSuffix' in f and f['includePrivateSuffix'][0][1] == 'true'),
            url=url, ign=('IgnoreSubDomains' in up and up['IgnoreSubDomains'][0][1]=='true'), puny=('ConvertURLToPunyCode' in up and up['ConvertURLToPunyCode'][0][1]=='true'),
            ex={k: sval(v) for k, v in ex.items() if k != 'HostType'}, ht=(ex['HostType'][0][1] if 'HostType' in ex else None), err=e))


import unicodedata
from urllib.parse import unquote_to_bytes

def puny_label(l):
    l = unicodedata.normalize('NFKC', l).lower()
    return l if l.isascii() else 'xn--' + l.encode('punycode').decode()

def to_puny(host):
    try:
        h = host.decode()
    except UnicodeDecodeError:
        return None
    for sep in '。．｡': h = h.replace(sep, '.')
    ls = [puny_label(l) for l in h.split('.')]
    if any(l == 'xn--0' for l in ls): return None
    return '.'.join(ls).encode()

def url_tokens(u):
    t = set()
    for v in (u, unquote_to_bytes(u)):
        h = v.decode('utf-8', 'replace')
        for sep in '。．｡/\\?#:@': h = h.replace(sep, '.')
        for l in h.split('.'):
            t.add(l.strip()); t.add(puny_label(l.strip()))
    return t

def rules():
    toks = set()
    for c in cases: toks |= url_tokens(c['url'])
    out, priv, extra = [], False, {}
    for l in open('/repo/test/public_suffix_list.dat', encoding='utf-8'):
        l = l.strip()
        if l == '// ===BEGIN PRIVATE DOMAINS===': priv = True
        if not l or l.startswith('//'): continue
        ls = l.split('.')
        tld = ls[-1]
        ok = all(x in toks or puny_label(x) in toks or x == '*' or x.startswith('!') for x in ls)
        if tld in toks and not ok and extra.get(tld, 0) < 2:
            extra[tld] = extra.get(tld, 0) + 1; ok = True
        if ok:
            a = '.'.join(puny_label(x) for x in ls)
            out.append((priv, a))
            if a != l: out.append((priv, l))
    return out

HT = {None: 'HNone', 'HostName': 'HHostName', 'IPv4': 'HIPv4', 'IPv6': 'HIPv6'}

def emit():
    print("""(** RepoTests.v - the Extract test tables of fasttld_test.go:227-771 run on the model.
    Generated by tools/gen_tests.py.  These are tests of the model, not proofs about it. *)

From Verif Require Import Base Str Net Trie Extract.
Local Open Scope N_scope.

Record case := mkCase { c_private : bool; c_url : bytes; c_ignore : bool; c_puny : bool;
  c_unicode_err : option bytes; c_to_puny : option bytes; c_expected : result; c_err : option err }.

Definition err_eqb (a b : option err) : bool :=
  match a, b with
  | None, None => true
  | Some ErrOpeningBracket, Some ErrOpeningBracket => true
  | Some ErrClosingBracket, Some ErrClosingBracket => true
  | Some ErrIncompleteBrackets, Some ErrIncompleteBrackets => true
  | Some ErrInvalidIPv6, Some ErrInvalidIPv6 => true
  | Some ErrTrailingAfterIPv6, Some ErrTrailingAfterIPv6 => true
  | Some ErrInvalidPort, Some ErrInvalidPort => true
  | Some (ErrUnescape x), Some (ErrUnescape y) => bytes_eqb x y
  | Some (ErrIdna x), Some (ErrIdna y) => bytes_eqb x y
  | Some ErrConsecutiveSeparators, Some ErrConsecutiveSeparators => true
  | Some ErrInvalidChars, Some ErrInvalidChars => true
  | Some ErrEmptyDomain, Some ErrEmptyDomain => true
  | _, _ => false
  end.
Definition host_type_eqb (a b : host_type) : bool :=
  match a, b with
  | HNone, HNone | HHostName, HHostName | HIPv4, HIPv4 | HIPv6, HIPv6 => true
  | _, _ => false
  end.
Definition result_eqb (a b : result) : bool :=
  bytes_eqb (r_scheme a) (r_scheme b) && bytes_eqb (r_user_info a) (r_user_info b)
  && bytes_eqb (r_sub_domain a) (r_sub_domain b) && bytes_eqb (r_domain a) (r_domain b)
  && bytes_eqb (r_suffix a) (r_suffix b)
  && bytes_eqb (r_registered_domain a) (r_registered_domain b)
  && bytes_eqb (r_port a) (r_port b) && bytes_eqb (r_path a) (r_path b)
  && host_type_eqb (r_host_type a) (r_host_type b).
""")
    rs = rules()
    print('Definition public_rules : list bytes :=\n  [' + ';\n   '.join(coq_bytes(r.encode()) for p, r in rs if not p) + '].')
    print('Definition private_rules : list bytes :=\n  [' + ';\n   '.join(coq_bytes(r.encode()) for p, r in rs if p) + '].')
    print('Definition cases : list case := [')
    items = []
    for c in cases:
        e = 'None'; oe = 'None'
        if c['err']:
            if c['err'].startswith('errs['):
                e = 'Some ' + table[err_of[int(c['err'][5:-1])][1]]
            else:
                m = eval(c['err'][len('errors.New'):])
                if m.startswith(b'invalid URL escape'):
                    e = 'Some (ErrUnescape %s)' % coq_bytes(m.split(b'"')[1])
                else:
                    e = 'Some (ErrIdna %s)' % coq_bytes(m); oe = 'Some %s' % coq_bytes(m)
        op = 'None'
        if c['puny']:
            u = c['url'].decode().strip(''.join(map(chr, range(33))))
            h = re.sub(r'^[A-Za-z][A-Za-z0-9+.-]*:[/\\]{2,}', '', u)
            h = re.split(r'[/\\?#:]', h)[0].split('@')[-1]
            p = to_puny(unquote_to_bytes(h.encode()))
            if p is not None: op = 'Some %s' % coq_bytes(p)
        g = lambda k: coq_bytes(c['ex'].get(k, b''))
        items.append('mkCase %s %s %s %s (%s) (%s)\n   (mkResult %s %s) (%s)' % (
            str(c['priv']).lower(), coq_bytes(c['url']), str(c['ign']).lower(), str(c['puny']).lower(), oe, op,
            ' '.join(g(k) for k in ['Scheme','UserInfo','SubDomain','Domain','Suffix','RegisteredDomain','Port','Path']), HT[c['ht']], e))
    print(';\n  '.join(items) + '].')
    print("""
Definition run_case (pub all : trie) (c : case) : bool :=
  match extract (mkIdna (fun _ => c_unicode_err c) (fun _ => c_to_puny c))
                (if c_private c then all else pub)
                (mkParams (c_url c) (c_ignore c) (c_puny c)) with
  | Ret (r, e) => result_eqb r (c_expected c) && err_eqb e (c_err c)
  | _ => false
  end.
Definition run_cases : list nat :=
  match build_trie public_rules, build_trie (public_rules ++ private_rules) with
  | Ret pub, Ret all =>
    map fst (filter (fun '(_, c) => negb (run_case pub all c))
                    (combine (seq 0 (length cases)) cases))
  | _, _ => [0%%nat]
  end.

(** All %d cases of the tables agree with the model. *)
Example repo_tests_pass : run_cases = [] /\\ length cases = %d%%nat.
Proof. split; vm_compute; reflexivity. Qed.""" % (len(cases), len(cases)))

if __name__ == '__main__':
    emit()
