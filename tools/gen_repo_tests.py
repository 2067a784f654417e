#!/usr/bin/env python3
"""Translate the unit tests of /repo into runs of the model: writes rocq/theories/RepoTests.v.

The tests are read from the Rust sources by a small parser and evaluated: every call of the code under test becomes a
call of the model function, every assertion a boolean; random values are fixed.  Each test is a [res N]: [Done 0] if all
assertions hold, [Done n] if the n-th fails, [Panic] if something panics.
"""
import re, base64, os
REPO = '/repo'
COM = {'Processed', 'Confirmed', 'Finalized'}

# ---------------------------------------------------------------- parser
TOK = re.compile(r'''\s+|//[^\n]*|(?P<str>"(?:\\.|[^"\\])*")|(?P<chr>'(?:\\.|[^'\\])')|(?P<num>0x[0-9a-fA-F]+|\d[\d_]*)|(?P<id>[A-Za-z_]\w*)|(?P<op>\.\.|::|==|!=|\|\||&&|=>|->|[-+*/%!&|.,;:(){}\[\]<>=#?])''')
def lex(s):
    out, i = [], 0
    while i < len(s):
        m = TOK.match(s, i)
        if not m: raise SyntaxError(s[i:i+40])
        if m.lastgroup: out.append((m.lastgroup, m.group()))
        i = m.end()
    return out
class P:
    def __init__(self, toks): self.t, self.i = toks, 0
    def pk(self, k=0): return self.t[self.i + k][1] if self.i + k < len(self.t) else None
    def kind(self): return self.t[self.i][0] if self.i < len(self.t) else None
    def nx(self): self.i += 1; return self.t[self.i - 1][1]
    def eat(self, x):
        if self.pk() == x: self.i += 1; return True
        return False
    def want(self, x):
        if not self.eat(x): raise SyntaxError('wanted %s, got %s' % (x, [y[1] for y in self.t[self.i - 8:self.i + 5]]))
    def generics(self):
        self.want('<'); d = 1
        while d:
            x = self.nx(); d += (x == '<') - (x == '>')
    def block(self):
        out = []
        while self.pk() is not None and self.pk() != '}':
            if self.eat('let'):
                self.eat('mut'); n = self.nx()
                if self.eat(':'):
                    while self.pk() != '=': self.nx()
                self.want('='); e = self.expr(); self.want(';'); out.append(('let', n, e))
            else:
                out.append(('do', self.expr())); self.want(';')
        return out
    def expr(self):
        e = self.eq()
        while self.eat('||'): e = ('or', e, self.eq())
        return e
    def eq(self):
        e = self.un()
        if self.eat('=='): e = ('eq', e, self.un())
        elif self.eat('..'): e = ('range', e, self.un())
        return e
    def un(self):
        if self.eat('&'): self.eat('mut'); return self.un()
        if self.eat('*'): return self.un()
        if self.eat('!'): return ('not', self.un())
        return self.post(self.prim())
    def args(self, close):
        a = []
        while not self.eat(close):
            a.append(self.expr())
            if not self.eat(','): self.want(close); break
        return a
    def prim(self):
        if self.kind() in ('str', 'chr', 'num'):
            k, v = self.kind(), self.nx()
            return ('lit', int(v.replace('_', ''), 0) if k == 'num' else eval(v.replace('\n', '\\n')))
        if self.eat('('):
            a = self.args(')'); return a[0] if len(a) == 1 else ('tuple', a)
        if self.eat('['):
            return ('vec', self.args(']'))
        if self.eat('|'):
            n = self.nx(); self.want('|'); return ('fn', n, self.expr())
        path = [self.nx()]
        while self.pk() == '::':
            self.nx()
            if self.pk() == '<': self.generics()
            else: path.append(self.nx())
        if self.pk() == '!' and self.pk(1) in ('(', '['):
            self.nx(); o = self.nx(); c = {'(': ')', '[': ']'}[o]
            if path == ['vec'] and o == '[':
                if self.pk() == ']': self.nx(); return ('vec', [])
                a = self.expr()
                if self.eat(';'): b = self.expr(); self.want(']'); return ('rep', a, b)
                self.eat(','); return ('vec', [a] + self.args(']'))
            return ('macro', path[0], self.args(c))
        if self.pk() == '{' and path[-1][0].isupper():
            self.nx(); f = {}
            while not self.eat('}'):
                k = self.nx()
                f[k] = self.expr() if self.eat(':') else ('path', [k])
                if not self.eat(','): self.want('}'); break
            return ('struct', path[-1], f)
        if self.pk() == '(': self.nx(); return ('call', path, self.args(')'))
        return ('path', path)
    def post(self, e):
        while True:
            if self.eat('.'):
                n = self.nx()
                if self.pk() == '::': self.nx(); self.generics()
                if self.eat('('): e = ('meth', e, n, self.args(')'))
                else: e = ('field', e, n)
            elif self.eat('['):
                e = ('index', e, self.expr()); self.want(']')
            elif self.eat('?'): pass
            else: return e

def tests(path):
    src = open(f'{REPO}/{path}').read()
    for m in re.finditer(r'#\[test\]\s*(?:pub )?fn (\w+)\(\) \{', src):
        d, i = 1, m.end()
        while d:
            c = src[i]
            if c == '"':
                i += 1
                while src[i] != '"': i += 2 if src[i] == '\\' else 1
            d += (c == '{') - (c == '}'); i += 1
        yield m.group(1), src[m.end():i - 1], src.count('\n', 0, m.start()) + 2, src.count('\n', 0, i) + 1

# ---------------------------------------------------------------- values
class C:                      # a Coq term with a type
    def __init__(s, term, ty): s.term, s.ty = term, ty
class By:                     # bytes known here
    def __init__(s, b, term=None): s.b, s.term = b, term or ('[' + '; '.join(map(str, b)) + ']')
NONE = ('none',)
def b58(b):
    n = int.from_bytes(b, 'big'); s = ''
    while n: n, r = divmod(n, 58); s = '123456789ABCDEFGHJKLMNPQRSTUVWXYZabcdefghijkmnopqrstuvwxyz'[r] + s
    return '1' * (len(b) - len(b.lstrip(b'\0'))) + s
STRS = []
def txt(s):
    if s not in STRS: STRS.append(s)
    return f'(str_{STRS.index(s)})'
def rdata(seed, n): return bytes((seed * 37 + i * 11 + 5) % 256 for i in range(n))

class Run:
    def __init__(s):
        s.lines, s.env, s.n, s.k, s.fresh, s.seed, s.bc = [], {}, 0, 0, 1000, 0, None
    def emit(s, l): s.lines.append(l)
    def var(s): s.k += 1; return f'r{s.k}'
    def bind(s, term, ty): v = s.var(); s.emit(f'{v} <- {term} ;;'); return C(v, ty)
    def let(s, term, ty): v = s.var(); s.emit(f'let {v} := {term} in'); return C(v, ty)
    def check(s, term): s.n += 1; s.emit(f'if negb {term} then Done {s.n} else')
    def newpk(s): s.fresh += 1; return s.fresh
    # Coq form of a value at a type
    def coq(s, v):
        if isinstance(v, C): return v.term
        if isinstance(v, By): return f'(bs {v.term})' if not v.term.startswith('(') else v.term
        if isinstance(v, bool): return 'true' if v else 'false'
        if isinstance(v, int): return str(v)
        if v == NONE: return 'None'
        if isinstance(v, tuple) and v[0] == 'some': return f'(Some {s.coq(v[1])})'
        if isinstance(v, tuple) and v[0] == 'pair': return f'({s.coq(v[1])}, {s.coq(v[2])})'
        if isinstance(v, tuple) and v[0] == 'ok': return f'(ROk {s.coq(v[1])})'
        if isinstance(v, tuple) and v[0] == 'err': return f'(RErr {v[1]})'
        if isinstance(v, list): return '[' + '; '.join(map(s.coq, v)) + ']'
        raise TypeError(repr(v))
    def eq(s, a, b):
        if not isinstance(a, C): a, b = b, a
        eqs = {'rl': '(eq_r eq_l {} {})', 'ra': '(eq_r eq_oa {} {})', 'oa': '(eq_oa {} {})', 'l': '(eq_l {} {})', 'prom': '(eq_prom {} {})',
               'bool': '(eqb {} {})', 'N': '({} =? {})', 'keys': '(eq_keys {} {})', 'filter': '(eq_f {} {})', 'filters': '(eq_fs {} {})',
               'tparams': '(eq_tp {} {})', 'mparams': '(eq_mp {} {})'}
        return eqs[a.ty].format(s.coq(a), s.coq(b))
    def truth(s, v):
        if isinstance(v, C): assert v.ty == 'bool'; return v.term
        return s.coq(v)
    # evaluation
    def run(s, stmts):
        for st in stmts:
            if st[0] == 'let': s.env[st[1]] = s.ev(st[2])
            else: s.ev(st[1])
    def ev(s, e):
        return getattr(s, 'e_' + e[0])(*e[1:])
    def e_lit(s, v): return v
    def e_vec(s, l): return [s.ev(x) for x in l]
    def e_rep(s, a, b): return By(bytes([s.ev(a)] * s.ev(b)))
    def e_tuple(s, l): return ('pair',) + tuple(s.ev(x) for x in l)
    def e_not(s, e): return C(f'(negb {s.truth(s.ev(e))})', 'bool')
    def e_or(s, a, b): return C(f'({s.truth(s.ev(a))} || {s.truth(s.ev(b))})', 'bool')
    def e_eq(s, a, b): return C(s.eq(s.ev(a), s.ev(b)), 'bool')
    def e_path(s, p):
        if len(p) == 1 and p[0] in s.env: return s.env[p[0]]
        if p[-1] == 'None' and len(p) == 1: return NONE
        if p in (['true'], ['false']): return p == ['true']
        if p[-2:] == ['u64', 'MAX']: return 2 ** 64 - 1
        if p[-2:-1] == ['Commitment']: return C(p[-1], 'com')
        if p[-2:-1] == ['CompressionMethod']: return C('CNone', 'comp')
        if p[0] == 'AccountLoadingError': return C(p[1], 'err')
        if p[-2:] == ['TokenProgramAccountState', 'Initialized']: return C('Init', 'tstate')
        if p[-2:] == ['Program', 'TokenProgram']: return C('TokenP', 'prog')
        raise NameError(p)
    def e_struct(s, n, f):
        g = lambda k: s.coq(s.ev(f[k]))
        if n == 'AccountFilter': return C(f'(AFilter {g("accounts")} {g("program_id")} {g("filters")})', 'filter')
        if n == 'MemcmpFilter': return C(f'(Memcmp {g("offset")} {g("data")})', 'memcmp')
        if n == 'SlotInfo': return C(f'(SlotInfo {g("slot")} {g("parent")} {g("root")})', 'slot')
        if n == 'Account': return C(f'(Account {g("lamports")} {g("data")} {g("owner")} {g("executable") } {g("rent_epoch")})', 'account')
        if n == 'AccountData': return s.let(f'Acct {g("pubkey")} {g("account")} {g("updated_slot")} {g("write_version")}', 'acct')
        if n == 'TokenAccount':
            return s.let(f'TokenAccount {g("program")} {g("is_deleted")} {g("pubkey")} {g("mint")} {g("owner")} {g("amount")} {g("state")} {g("delegate")} {g("is_native")} {g("close_authority")} {g("additional_data")}', 'token')
        raise NameError(n)
    def e_macro(s, n, a):
        if n == 'assert_eq': s.check(s.eq(s.ev(a[0]), s.ev(a[1])))
        elif n == 'assert': s.check(s.truth(s.ev(a[0])))
        elif n == 'println': pass
        else: raise NameError(n)
    def e_field(s, e, n):
        v = s.ev(e)
        if isinstance(v, C) and v.ty == 'bc': return C({'confirmed_account': f'(bc_conf {v.term})', 'finalized_account': f'(bc_fin {v.term})', 'processed_accounts': f'(bc_proc {v.term})'}[n], {'p': 'map'}.get(n[0], 'oa'))
        if isinstance(v, C) and v.ty == 'store' and n == 'pubkey_to_account_index': return C(v.term, 'pkindex')
        if isinstance(v, C) and v.ty == 'store' and n == 'accounts_store': return C(v.term, 'accs')
        if isinstance(v, C) and v.ty == 'acct' and n == 'pubkey': return C(f'(d_pubkey {v.term})', 'N')
        raise NameError((n, v))
    def e_index(s, e, i):
        if i[0] == 'range':
            v = s.ev(e); a, b = s.ev(i[1]), s.ev(i[2]); return By(v.b[a:b], f'(take {b - a} (drop {a} {s.coq(v)}))')
        v, k = s.ev(e), s.ev(i)
        if isinstance(v, list): return v[k]
        if v.ty == 'accs': return s.bind(f'unwrap (nth_error (st_accounts {v.term}) {k.term})', 'bc')
        if v.ty == 'filters': return s.bind(f'unwrap (nth_error {v.term} {k})', 'filter')
        raise NameError(v)
    def random_account(s, slot, pk, prog, data=None, comp='CNone', wv=0):
        s.seed += 1
        d = f'(rdata {s.seed} {20 + s.seed % 7})' if data is None else s.coq(data)
        a = s.bind(f'from_solana ET (SolAccount {s.seed + 100} {d} {prog} false 0) {comp}', 'account')
        return s.let(f'Acct {pk} {a.term} {slot} {wv}', 'acct')
    def e_call(s, p, a):
        n = p[-1]
        if n == 'init': return None                                     # tracing_subscriber::fmt::init
        if p[-2:] == ['Pubkey', 'new_unique']: return s.newpk()
        if p[-2:] == ['Pubkey', 'default']: return 0
        if p[-2:] == ['Pubkey', 'from_str']: return s.bind(f'unwrap (pk_parse {txt(s.ev(a[0]))})', 'N')
        if n == 'id' and p[0] == 'spl_token': return C('spl_token_id', 'N')
        if n == 'thread_rng': return None
        if p[-2:] == ['HashSet', 'new']: return []
        if n == 'Some': return ('some', s.ev(a[0]))
        if n == 'Ok': return ('ok', s.ev(a[0]))
        if n == 'Err': return ('err', s.ev(a[0]).term)
        if p[-2:] == ['Arc', 'new']: return s.ev(a[0])
        if n == 'Datasize': return C(f'(Datasize {s.coq(s.ev(a[0]))})', 'cond')
        if n == 'Memcmp': return C(f'(MemcmpC {s.coq(s.ev(a[0]))})', 'cond')
        if p[-2:-1] == ['MemcmpFilterData']:
            v = s.ev(a[0])
            if n == 'Bytes': return C(f'(MBytes {s.bytes(v)})', 'mdata')
            return C(f'(M{n} {txt(v)})', 'mdata')
        if n == 'Uncompressed': return C(f'(DRaw {s.bytes(s.ev(a[0]))})', 'adata')
        if n == 'Lz4': return C(f'(CLz4 {s.ev(a[0])})', 'comp')
        if n == 'new_slot_info': k = s.ev(a[0]); return C(f'(SlotInfo {k} {max(k - 1, 0)} 0)', 'slot')
        if n == 'new_filter_store':
            f = s.bind(f'add_filters ET fstore_empty {s.coq(s.ev(a[0]))}', 'fstore'); return s.let(f'filt_of {f.term}', 'filt')
        if p[-2:] == ['InmemoryAccountStore', 'new']:
            F = s.ev(a[0]); st = s.let('store_empty', 'store'); st.F = F.term; return st
        if p[-2:] == ['AccountDataByCommitment', 'default']: return s.let('bc_empty', 'bc')
        if p[-2:] == ['AccountDataByCommitment', 'initialize']: return s.let(f'bc_initialize {s.coq(s.ev(a[0]))}', 'bc')
        if n == 'create_account_data':
            return s.let(f'Acct {s.newpk()} (Account 100 (DRaw (replicate 32 (n2b 0))) {s.newpk()} false 0) {s.ev(a[0])} {s.ev(a[1])}', 'acct')
        if n.startswith('create_random_account'):
            x = [s.ev(y) for y in a[1:]]
            if n == 'create_random_account': return s.random_account(*x[:3])
            if n == 'create_random_account_with_write_version': return s.random_account(*x[:3], wv=x[3])
            return s.random_account(*x[:3], data=x[3], comp=x[4].term)
        if p[-2:] == ['SimpleFilterStore', 'default']: return s.let('fstore_empty', 'fs')
        if p[-2:] == ['ExceptFilterStore', 'default']: return s.let('fstore_empty', 'efs')
        if p[-2:] == ['AccountFilters', 'new']: return s.let('([] : list afilter)', 'filters')
        if p[0] == 'serde_json' and n == 'from_str':
            v = s.ev(a[0]); t = v.term if isinstance(v, C) else s.coqstr(v)
            o = s.bind(f'filters_from_str {t}', 'ofilters'); return o
        if p[0] == 'serde_json' and n == 'to_string': return C(f'(filters_to_string {s.ev(a[0]).term})', 'str')
        if p[-2:] == ['InmemoryTokenAccountStorage', 'default']: return None
        if p[-2:] == ['TokenProgramAccountsStorage', 'new']: return s.let('ts_empty', 'tstore')
        if p[-2:] == ['MintCreationParams', 'create_default']: return s.let(f'SplMint None {s.ev(a[0])} 6 true None', 'mparams')
        if p[-2:] == ['MintCreationParams', 'create_random']: s.seed += 1; return s.let(f'SplMint (Some {s.newpk()}) {s.ev(a[1])} {s.seed} true (Some {s.newpk()})', 'mparams')
        if p[-2:] == ['TokenAccountParams', 'create_default']: o, m, k = [s.ev(x) for x in a]; return s.let(f'SplAccount {m} {o} {k} None Init None 0 None', 'tparams')
        if p[-2:] == ['TokenAccountParams', 'create_random']:
            o, m, k = [s.ev(x) for x in a[1:]]; s.seed += 1
            return s.let(f'SplAccount {m} {o} {k} (Some {s.newpk()}) {"Frozen" if s.seed % 2 else "Init"} {"None" if s.seed % 2 else "(Some 4242)"} {s.seed + 70} (Some {s.newpk()})', 'tparams')
        if n == 'create_mint_account_data':
            pk, m, sl, wv = [s.ev(x) for x in a]; return s.let(f'Acct {pk} (Account 1000 (DRaw (pack_mint {m.term})) spl_token_id false (2 ^ 64 - 1)) {sl} {wv}', 'acct')
        if n == 'create_token_account_data':
            pk, m, sl, wv = [s.ev(x) for x in a]; return s.let(f'Acct {pk} (Account 2039280 (DRaw (pack_account {m.term})) spl_token_id false (2 ^ 64 - 1)) {sl} {wv}', 'acct')
        if n == 'parse_account_data_to_token_params': return s.bind(f'token_params {s.ev(a[0]).term}', 'tparams')
        if n == 'parse_account_data_to_mint_params': return s.bind(f'mint_params {s.ev(a[0]).term}', 'mparams')
        if p[-2:-1] == ['TokenAccount']:
            v = s.ev(a[0]).term
            f, t = {'get_pubkey_from_binary': ('peek_pubkey', 'N'), 'get_owner_from_binary': ('peek_owner', 'N'), 'get_mint_index_from_binary': ('peek_mint', 'N'), 'from_bytes': ('from_bytes', 'token')}[n]
            return s.bind(f'{f} {v}', t)
        if n == 'encode' and p[0] == 'bs58': return ('b58', s.ev(a[0]))
        raise NameError((p, a))
    def bytes(s, v):
        if isinstance(v, list): return '(bs [' + '; '.join(map(str, v)) + '])'
        return s.coq(v)
    def coqstr(s, v): return txt(v)
    def e_meth(s, e, n, a):
        if n in ('clone', 'iter', 'cloned', 'to_bytes_vec'): return s.ev(e)
        if e[0] == 'range' and n == 'map':
            k = s.ev(e[2])
            if a[0][2][0] == 'call': return [s.ev(a[0][2]) for _ in range(k)]
            s.seed += 1; return By(rdata(s.seed, k), f'(rdata {s.seed} {k})')
        if n in ('collect_vec', 'collect', 'to_vec'): return s.ev(e)
        if e[0] == 'path' and e[1][-1] == 'STANDARD' and n == 'encode': return base64.b64encode(s.ev(a[0]).b).decode()
        v = s.ev(e)
        if n == 'into_string': return b58(v[1].b)
        if isinstance(v, list):
            if n == 'map': return [s.with_arg(a[0], x) for x in v]
            if n == 'insert': v.append(s.ev(a[0])); return None
            raise NameError(n)
        if isinstance(v, int) and n == 'to_bytes': return By(v.to_bytes(32, 'little'), f'(le 32 {v})')
        if n == 'unwrap':
            if isinstance(v, C) and v.ty in ('rl', 'ra', 'rb', 'ru'): return s.bind(f'unwrap_r {v.term}', {'rl': 'l', 'ra': 'oa', 'rb': 'bytes', 'ru': 'unit'}[v.ty])
            if isinstance(v, C) and v.ty == 'oa': return s.bind(f'unwrap {v.term}', 'acct')
            if isinstance(v, C) and v.ty == 'ofilters': return s.bind(f'unwrap {v.term}', 'filters')
            return v
        assert isinstance(v, C), (n, v)
        t, x = v.ty, v.term
        if t in ('fs', 'efs'):
            if n in ('add_account_filter', 'add_account_filters'):
                w = s.ev(a[0]); s.emit(f'{x} <- add_filters ET {x} {s.coq(w if isinstance(w, list) else [w])} ;;'); return None
            if n in ('contains_filter_internal', 'contains_filter'): return C(f'({"contains_filter" if t == "fs" else "except_contains"} {x} {s.ev(a[0]).term})', 'bool')
            if n == 'satisfies': return s.bind(f'{"satisfies" if t == "fs" else "except_satisfies"} ET {x} {s.ev(a[0]).term}', 'bool')
        if t == 'filters' and n == 'push': s.emit(f'let {x} := {x} ++ [{s.ev(a[0]).term}] in'); return None
        if t == 'str' and n == 'replace': return v
        if t == 'bc':
            y = [s.ev(z) for z in a]
            if n == 'update': s.emit(f"let {x} := (bc_update {x} {y[0].term} {y[1].term}).1 in"); return None
            if n == 'promote_slot_commitment':
                r = s.let(f'(bc_promote {x} {y[0]} {y[1].term}).2', 'prom'); s.emit(f"let {x} := (bc_promote {x} {y[0]} {y[1].term}).1 in"); return r
            if n == 'get_account_data': return s.let(f'bc_get {x} {y[0].term}', 'oa')
            if n == 'get_account_data_filtered': return s.bind(f'bc_get_filtered ET {x} {y[0].term} {s.coq(y[1])}', 'oa')
            if n == 'delete': s.emit(f'let {x} := bc_delete {x} in'); return None
            if n in ('read', 'unwrap'): return v
        if t in ('accs', 'store') and n in ('read',): return v
        if t == 'pkindex' and n == 'get': return s.bind(f'unwrap (st_index {x} !! ({s.ev(a[0])} : pubkey))', 'nat')
        if t == 'map' and n == 'len': return C(f'(lenN {x})', 'N')
        if t == 'store':
            F = v.F; y = [s.ev(z) for z in a]
            if n == 'initilize_or_update_account': s.emit(f'{x} <- init_account {F} {x} {y[0].term} ;;'); return None
            if n == 'update_account': w = s.bind(f'update_account {F} {x} {y[0].term} {y[1].term}', 'p'); s.emit(f'let {x} := {w.term}.1 in'); return C(f'{w.term}.2', 'bool')
            if n == 'process_slot_data': w = s.bind(f'process_slot {F} {x} {y[0].term} {y[1].term}', 'p'); s.emit(f'let {x} := {w.term}.1 in'); return C(f'{w.term}.2', 'l')
            if n == 'get_account': return s.bind(f'get_account {x} {s.coq(y[0])} {y[1].term}', 'ra')
            if n == 'get_program_accounts': return s.bind(f'get_program_accounts ET {F} {x} {s.coq(y[0])} {s.coq(y[1])} {y[2].term}', 'rl')
            if n == 'create_snapshot': return s.bind(f'create_snapshot ET {F} {x} {s.coq(y[0])}', 'rb')
            if n == 'load_from_snapshot': w = s.bind(f'load_from_snapshot {F} {x} {s.coq(y[0])} {s.coq(y[1])}', 'p'); s.emit(f'let {x} := {w.term}.1 in'); return C(f'{w.term}.2', 'ru')
        if t == 'tstore':
            y = [s.ev(z) for z in a]
            if n == 'initilize_or_update_account': s.emit(f'{x} <- ts_init ET {x} {y[0].term} ;;'); return None
            if n == 'update_account': w = s.bind(f'ts_update ET {x} {y[0].term} {y[1].term}', 'p'); s.emit(f'let {x} := {w.term}.1 in'); return C(f'{w.term}.2', 'bool')
            if n == 'process_slot_data': w = s.bind(f'ts_slot map_to_list {x} {y[0].term} {y[1].term}', 'p'); s.emit(f'let {x} := {w.term}.1 in'); return C(f'{w.term}.2', 'l')
            if n == 'get_account': return s.bind(f'ts_get {x} {s.coq(y[0])} {y[1].term}', 'ra')
            if n == 'get_program_accounts': return s.bind(f'ts_gpa ET {x} {s.coq(y[0])} {s.coq(y[1])} {y[2].term}', 'rl')
        if t == 'rl' and n in ('is_ok', 'is_err'): return C(f'({n} {x})', 'bool')
        if t == 'l' and n == 'is_empty': return C(f'(lenN {x} =? 0)', 'bool')
        if t == 'l' and n == 'len': return C(f'(lenN {x})', 'N')
        if t == 'l' and n == 'contains': return C(f'(existsb (acct_eqb {s.ev(a[0]).term}) {x})', 'bool')
        if t == 'l' and n == 'map' : return C(f'(d_pubkey <$> {x})', 'keys')
        if t == 'token' and n == 'to_bytes': return C(f'(to_bytes {x})', 'tbytes')
        if t == 'tbytes' and n == 'len': return C(f'(lenN {x})', 'N')
        raise NameError((t, n))
    def with_arg(s, f, x):
        old = dict(s.env); s.env[f[1]] = x; r = s.ev(f[2]); s.env = old; return r

HEAD = '''(** The unit tests of the repository, run on the model.  Written by tools/gen_repo_tests.py from the Rust sources.
    These are tests of the transcription, not proofs of properties.  Each call of the code under test is a call of the
    model function; random values are fixed; [assert_eq!] on accounts is [PartialEq for AccountData] (account_data.rs
    143-149) and on lists of accounts is up to order (the order of query answers is not modelled, see StoreModel.v).
    A test evaluates to [Done 0], to the number of its first failing assertion, or to [Panic].
    Not translated: [fuzzy_test_token_account_serialization] (account_types.rs 296-343; for all accounts: C38). *)
From Coq Require Import String.
From Verif Require Import Base DataModel FilterModel ByCommitModel BincodeModel StoreModel TokenModel SplModel TokenUtilsModel
  TokenPendModel TokenStoreModel Lz4Model Base58Model JsonModel FilterJsonModel.

(** Helpers of the translation: text, comparisons, [unwrap] of a [Result].  Not in the code. *)
Definition txt (s : string) : bytes := String.list_byte_of_string s.
Definition bs (l : list N) : bytes := n2b <$> l.
(** Fixed data in place of random data. *)
Definition rdata (seed n : N) : bytes := (fun i => n2b ((seed * 37 + N.of_nat i * 11 + 5) mod 256)) <$> seq 0 (N.to_nat n).
(** The libraries: base 58 of Base58Model.v; the standard base 64; LZ4 blocks of literals with the size in front. *)
Definition b64_value (c : byte) : option N := let n := b2n c in
  if (65 <=? n) && (n <=? 90) then Some (n - 65) else if (97 <=? n) && (n <=? 122) then Some (n - 71)
  else if (48 <=? n) && (n <=? 57) then Some (n + 4) else if n =? 43 then Some 62 else if n =? 47 then Some 63 else None.
Fixpoint b64_decode (s : bytes) : option bytes :=
  match s with
  | [] => Some []
  | a :: b :: c :: d :: s' =>
      let eq := n2b 61 in
      x ← b64_value a; y ← b64_value b;
      if decide (c = eq) then (if decide (d = eq /\\ s' = []) then Some [n2b (x * 4 + y / 16)] else None)
      else z ← b64_value c;
           if decide (d = eq) then (if decide (s' = []) then Some [n2b (x * 4 + y / 16); n2b (y mod 16 * 16 + z / 4)] else None)
           else w ← b64_value d; r ← b64_decode s'; Some (n2b (x * 4 + y / 16) :: n2b (y mod 16 * 16 + z / 4) :: n2b (z mod 4 * 64 + w) :: r)
  | _ => None
  end.
Definition ET : ext := Ext b58_decode b64_decode (fun _ d => Some (le 4 (lenN d) ++ lit_block d)) (lz4_decompress lz4_sample) (fun _ d => Some d) Some.
Definition filt_of (f : fstore) : filt := Filt (fun a => match satisfies ET f a with Done b => b | Panic => false end) (contains_filter f).
Definition unwrap_r {A} (r : result A) : res A := match r with ROk a => Done a | RErr _ => Panic end.
Definition is_ok {A} (r : result A) : bool := match r with ROk _ => true | RErr _ => false end.
Definition is_err {A} (r : result A) : bool := negb (is_ok r).
Fixpoint take_one (a : acct) (l : list acct) : option (list acct) :=
  match l with [] => None | b :: l' => if acct_eqb a b then Some l' else (cons b) <$> take_one a l' end.
Fixpoint eq_l (l m : list acct) : bool :=
  match l with
  | [] => match m with [] => true | _ => false end
  | a :: l' => match take_one a m with Some m' => eq_l l' m' | None => false end
  end.
Definition eq_oa (a b : option acct) : bool := match a, b with Some a, Some b => acct_eqb a b | None, None => true | _, _ => false end.
Definition eq_prom (a b : option (acct * option acct)) : bool :=
  match a, b with Some (a, p), Some (b, q) => acct_eqb a b && eq_oa p q | None, None => true | _, _ => false end.
#[local] Instance load_error_dec : EqDecision load_error.
Proof. solve_decision. Defined.
#[local] Instance tstate_dec : EqDecision tstate.
Proof. solve_decision. Defined.
#[local] Instance spl_account_dec : EqDecision spl_account.
Proof. solve_decision. Defined.
#[local] Instance spl_mint_dec : EqDecision spl_mint.
Proof. solve_decision. Defined.
Definition eq_r {A} (f : A -> A -> bool) (a b : result A) : bool :=
  match a, b with ROk a, ROk b => f a b | RErr e, RErr e' => bool_decide (e = e') | _, _ => false end.
Definition eq_f (a b : afilter) : bool := bool_decide (a = b).
Definition eq_fs (a b : list afilter) : bool := bool_decide (a = b).
Definition eq_tp (a b : spl_account) : bool := bool_decide (a = b).
Definition eq_mp (a b : spl_mint) : bool := bool_decide (a = b).
Definition eq_keys (l m : list N) : bool := bool_decide ((list_to_set l : gset N) = list_to_set m).
(** The monad written out (no type classes: the tests are long). *)
Definition rbind {A B} (e : res A) (k : A -> res B) : res B := match e with Done x => k x | Panic => Panic end.
Notation "x <- e ;; k" := (rbind e (fun x => k)) (at level 100, e at next level, right associativity, only parsing).
(** tests/utils.rs 124-145 and 189-206. *)
Definition token_params (a : acct) : res spl_account := d ← data_bytes ET (d_data a); unwrap (unpack_account d).
Definition mint_params (a : acct) : res spl_mint := d ← data_bytes ET (d_data a); unwrap (unpack_mint d).
'''
FILES = ['account_storage/src/account_data_by_commitment.rs', 'account_storage/src/inmemory_account_store.rs', 'common/src/simple_filter_store.rs',
         'common/src/except_filter_store.rs', 'common/src/account_filter.rs', 'token_account_storage/src/account_types.rs',
         'token_account_storage/tests/token_program_gpa_tests.rs', 'token_account_storage/tests/token_program_tests.rs']
def main():
    out, count, asserts = [HEAD], 0, 0
    for f in FILES:
        for name, body, a, b in tests(f):
            if name.startswith('fuzzy'): continue
            r = Run()
            old = len(STRS); r.run(P(lex(body)).block())
            for i, t in enumerate(STRS[old:], old):
                out.append(f'Definition str_{i} : bytes := txt "' + t.replace('"', '""') + '".')
            out.append(f'(** {f} {a}-{b}: {r.n} assertions. *)\nDefinition {name} : res N :=\n' + '\n'.join('  ' + l for l in r.lines) + '\n  Done 0.\n'
                       + f'Example {name}_passes : {name} = Done 0.\nProof. vm_compute. reflexivity. Qed.\n')
            count += 1; asserts += r.n
    open(os.path.join(os.path.dirname(__file__), '../rocq/theories/RepoTests.v'), 'w').write('\n'.join(out))
    print(count, 'tests', asserts, 'assertions')
main()
