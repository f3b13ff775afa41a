#!/usr/bin/env python3
"""Transcribes the Ragel-generated goto automata of /repo/sip/{uri,msg}_parse.go into Gallina tables.

The output (theories/UriTable.v, theories/MsgTable.v) is committed; this script is only a convenience
for regenerating it and for auditing it against the Go text: nothing in the build runs it.

What it reads: the Go text between `st_case_1:` and `st_out:`. For every state N it walks the Go
statements from `st_case_N:` for every byte (0..255) and both values of lookAheadWSP until a `goto` leaves
the state, then reads the action blocks of the `trK:` label (each introduced by a `//line X.rl:N` comment)
up to the first goto. The final switch on cs at end of input is read as well.
"""
import re, sys

def load(path):
    return open(path, encoding='utf-8').read().split('\n')

class Prog:
    def __init__(self, path, rl):
        self.path, self.rl = path, rl
        L = load(path)
        self.L = L
        start = next(i for i, l in enumerate(L) if l.strip() == 'st_case_1:')
        end = next(i for i, l in enumerate(L) if l.strip() == 'st_out:')
        self.labels = {}
        for i in range(start, end):
            m = re.match(r'^\s*(st_case_\d+|st\d+|tr\d+):$', L[i])
            if m:
                assert m[1] not in self.labels
                self.labels[m[1]] = i
        self.end = end
        self.actions = {}   # text -> (id, line)
        self.tr = {}
        self.first_final = int(next(re.search(r'first_final int = (\d+)', l)[1] for l in L if 'first_final int' in l))
        self.en = {m[1]: int(m[2]) for l in L for m in [re.match(r'const \w+?_en_(\w+) int = (\d+)', l)] if m}

    def block_end(self, i):
        """index of the line closing the brace opened at the end of line i"""
        d = 0
        for j in range(i, self.end):
            s = self.L[j]
            d += s.count('{') - s.count('}')
            if d == 0 and j > i:
                return j
        raise Exception('unbalanced')

    def cond(self, c, env):
        c = c.strip()
        c = c.replace('lookAheadWSP(data, p, pe)', 'LA').replace('data[p]', 'B').replace('_widec', 'W')
        c = c.replace('&&', ' and ')
        assert re.match(r'^[\sLABW0-9<>=and]+$', c), c
        return eval(c, {}, env)

    def walk(self, i, j, env):
        """run Go statements in lines [i,j); return label of the goto taken, or None if it falls off"""
        L = self.L
        while i < j:
            s = L[i].strip()
            if s == '' or s.startswith('//line'):
                i += 1; continue
            m = re.match(r'^goto (\w+)$', s)
            if m: return m[1]
            m = re.match(r'^if (.*) \{$', s)
            if m:
                e = self.block_end(i)
                if self.cond(m[1], env):
                    r = self.walk(i+1, e, env)
                    if r: return r
                i = e+1; continue
            m = re.match(r'^switch (.*?)\s*\{$', s)
            if m:
                e = self.block_end(i)
                subj = m[1].strip()
                # split cases at depth 1
                cases, d = [], 0
                for k in range(i+1, e):
                    t = L[k].strip()
                    if d == 0:
                        mm = re.match(r'^case (.*):$', t)
                        if mm: cases.append([mm[1], k+1, None])
                        elif t == 'default:': cases.append([None, k+1, None])
                    d += t.count('{') - t.count('}')
                starts = [c[1]-1 for c in cases] + [e]
                for n, c in enumerate(cases): c[2] = starts[n+1]
                taken = None
                for c in cases:
                    if c[0] is None: continue
                    if subj:
                        v = self.cond(subj, env)
                        if v in [int(x) for x in c[0].split(',')]: taken = c; break
                    elif self.cond(c[0], env): taken = c; break
                if taken is None:
                    for c in cases:
                        if c[0] is None: taken = c
                if taken:
                    r = self.walk(taken[1], taken[2], env)
                    if r: return r
                i = e+1; continue
            m = re.match(r'^_widec = int16\(data\[p\]\)$', s)
            if m: env['W'] = env['B']; i += 1; continue
            if s == '_widec = 256 + (int16(data[p]) - 0)': env['W'] = 256 + env['B']; i += 1; continue
            if s == '_widec += 256': env['W'] += 256; i += 1; continue
            raise Exception('line %d: %r' % (i+1, s))
        return None

    def action(self, text, line):
        key = re.sub(r'\s+', ' ', text).strip()
        self.actions.setdefault(key, set()).add(line)
        return key

    def transition(self, lab):
        """(actions, ('st', n) | ('out', n)) for trK or stK"""
        if lab in self.tr: return self.tr[lab]
        if lab.startswith('st'):
            r = ([], ('st', int(lab[2:])))
        else:
            i = self.labels[lab] + 1
            acts, target = [], None
            cur, curline, curstart = None, None, None
            def flush():
                nonlocal cur, target
                if cur is None: return
                txt = re.sub(r'\s+', ' ', ' '.join(cur)).strip()
                g = re.search(r'\{\s*goto st(\d+)\s*\}$', txt)
                b = re.search(r'\{\s*p\+\+; cs = (\d+); goto _out \}$', txt)
                if g:
                    txt = txt[:g.start()].strip(); target = ('st', int(g[1]))
                elif b:
                    txt = txt[:b.start()].strip(); target = ('out', int(b[1]))
                if txt: acts.append(self.action(txt, curline))
                cur = None
            while target is None:
                raw = self.L[i]; s = raw.strip()
                m = re.match(r'^//line %s:(\d+)$' % re.escape(self.rl), s)
                if m:
                    flush()
                    if target: break
                    cur, curline = [], int(m[1])
                elif s.startswith('//line'):
                    flush()
                elif re.match(r'^goto st(\d+)$', s):
                    flush()
                    if target is None: target = ('st', int(s[7:]))
                    break
                elif cur is not None:
                    cur.append(s)
                else:
                    assert s == '', (lab, i+1, s)
                i += 1
            r = (acts, target)
        self.tr[lab] = r
        return r

    def states(self):
        return sorted(int(l[8:]) for l in self.labels if l.startswith('st_case_'))

    def row(self, n):
        """list of (widec, label): widec 0..255, with 269 and 525 standing for CR"""
        i = self.labels['st_case_%d' % n] + 1
        out = {}
        uses_w = False
        for b in range(256):
            for la in (False, True):
                env = {'B': b, 'LA': la, 'W': None}
                # state bodies end with a goto; 'st0:' for state 0 follows
                if n == 0: lab = None
                else:
                    lab = self.walk(i, self.end, env)
                out[(b, la)] = lab
        return out

    def eof(self):
        """states with an eof action: list of (states, label lines)"""
        txt = '\n'.join(self.L[self.end:])
        m = re.search(r'if p == eof \{\s*switch cs \{(.*?)\n\t\t\}\n\t\}', txt, re.S)
        return m[1] if m else None


URI_ACTS = {   # Go text of the action (white space normalised) -> constructor
 'amt = 0': 'UStart',
 'buf[amt] = data[p] amt++': 'UAppend',
 'hex = unhex(data[p]) * 16': 'UHexHi',
 'hex += unhex(data[p]) buf[amt] = hex amt++': 'UHexLo',
 'uri.Scheme = string(buf[0:amt])': 'UScheme',
 'uri.User = string(buf[0:amt])': 'UUser',
 'uri.Pass = string(buf[0:amt])': 'UPass',
 'uri.Host = string(buf[0:amt])': 'UHost',
 'uri.Port = uri.Port * 10 + uint16(data[p] - 0x30)': 'UPort',
 'b1 = string(buf[0:amt]) amt = 0': 'UB1',
 'b2 = string(buf[0:amt]) amt = 0': 'UB2',
 "if 'A' <= data[p] && data[p] <= 'Z' { buf[amt] = data[p] + 0x20 } else { buf[amt] = data[p] } amt++": 'ULower',
 'uri.Param = &URIParam{b1, b2, uri.Param}': 'UParam',
 'uri.Header = &URIHeader{b1, b2, uri.Header}': 'UHeader',
}

def ranges(syms):
    out = []
    for c in sorted(syms):
        if out and out[-1][1] == c - 1: out[-1][1] = c
        else: out.append([c, c])
    return '[' + '; '.join('(%d, %d)' % (a, b) for a, b in out) + ']'

def emit_rows(P, actname, nextname, name, typ, out):
    """one Gallina match over the states; symbols 0..255 are bytes, 256 is CR followed by LF and white space"""
    out.append('Definition %s (n : positive) : %s :=' % (name, typ))
    out.append('  match n with')
    for n in P.states():
        if n == 0: continue
        row = P.row(n)
        groups = {}
        for (b, la), lab in row.items():
            if la and b != 13:
                assert row[(b, False)] == lab, (n, b)
                continue
            if lab is None or lab == 'st0': continue
            groups.setdefault(lab, set()).add(256 if la else b)
        # Go labels with the same actions and target behave the same: merge them
        merged = {}
        for lab, syms in groups.items():
            acts, target = P.transition(lab)
            merged.setdefault((tuple(acts), target), set()).update(syms)
        ents = []
        items = sorted(merged.items(), key=lambda kv: min(kv[1]))
        default = None
        if sum(len(v) for v in merged.values()) == 257 and len(items) > 1:
            # every symbol is listed: the largest set goes last, as a catch-all
            default = max(items, key=lambda kv: len(kv[1]))
            items.remove(default)
            items.append((default[0], set(range(257))))
        for (acts, target), syms in items:
            a, nx = nextname(acts, target)
            ents.append('(%s, [%s], %s)' % (ranges(syms), '; '.join(actname(x) for x in a), nx))
        out.append('  | %d%%positive => [%s]' % (n, ';\n      '.join(ents)))
    out.append('  | _ => []')
    out.append('  end%N.')

def eof_cases(P):
    res, cur = [], None
    txt, line = [], None
    def flush():
        if cur is not None and txt:
            t = re.sub(r'\s+', ' ', ' '.join(txt)).strip()
            if t: cur[1].append(t)
        txt.clear()
    for s in P.eof().split('\n'):
        s = s.strip()
        m = re.match(r'^case ([\d, ]+):$', s)
        if m:
            flush(); cur = ([int(x) for x in m[1].split(',')], []); res.append(cur)
        elif s.startswith('//line'): flush()
        else: txt.append(s)
    flush()
    return res

def emit_uri(path):
    P = Prog('/repo/sip/uri_parse.go', 'uri_parse.rl')
    out = ['(** Generated by tools/ragel2coq.py from /repo/sip/uri_parse.go (states st_case_N and the trK labels they lead to).',
           '    One entry per set of bytes: the actions executed and the state entered with p++. Bytes not listed go to st0, the error state. *)',
           'From Verif Require Import Bytes Auto.', '']
    rows = []
    emit_rows(P, lambda a: URI_ACTS[a], lambda acts, t: (acts, 'Adv %d' % t[1]), 'uri_row', 'row uact Empty_set', rows)
    lines = {}
    for k, v in P.actions.items(): lines[URI_ACTS[k]] = (min(v), k)
    out.append('(** The actions, by the lines of /repo/sip/uri_parse.rl they are written on. *)')
    out.append('Inductive uact :=')
    for c, (l, k) in sorted(lines.items(), key=lambda kv: kv[1][0]): out.append('| %s   (* %d: %s *)' % (c, l, k.replace('(*', '( *')))
    out.append('.')
    out.append('')
    out += rows
    out.append('')
    out.append('(** uri_parse.go:30-35 *)')
    out.append('Definition uri_first_final : positive := %d.' % P.first_final)
    out.append('Definition uri_en_uriSansUser : positive := %d.' % P.en['uriSansUser'])
    out.append('Definition uri_en_uriWithUser : positive := %d.' % P.en['uriWithUser'])
    out.append('(** the switch on cs at the end of the input, uri_parse.go:2625-2674 *)')
    out.append('Definition uri_eof (n : positive) : list uact :=')
    out.append('  match n with')
    for sts, acts in eof_cases(P):
        out.append('  | %s => [%s]' % (' | '.join(map(str, sts)), '; '.join(URI_ACTS[a] for a in acts)))
    out.append('  | _ => []')
    out.append('  end%positive.')
    open(path, 'w').write('\n'.join(out) + '\n')

MSG_ACTS = {
 'mark = p': 'MMark',
 'amt = 0': 'MStart',
 'buf[amt] = data[p] amt++': 'MAppend',
 'hex = unhex(data[p]) * 16': 'MHexHi',
 'hex += unhex(data[p]) buf[amt] = hex amt++': 'MHexLo',
 'msg.Method = string(data[mark:p])': 'MMethod',
 'msg.VersionMajor = msg.VersionMajor * 10 + (data[p] - 0x30)': 'MMajor',
 'msg.VersionMinor = msg.VersionMinor * 10 + (data[p] - 0x30)': 'MMinor',
 'msg.Request, err = ParseURI(data[mark:p]) if err != nil { return nil, err }': 'MRequest',
 'msg.Status = msg.Status * 10 + (int(data[p]) - 0x30)': 'MStatus',
 'msg.Phrase = string(buf[0:amt])': 'MPhrase',
 'via = new(Via)': 'MViaNew',
 '*viap = via viap = &via.Next via = nil': 'MVia',
 'via.Protocol = string(data[mark:p])': 'MViaProtocol',
 'via.Version = string(data[mark:p])': 'MViaVersion',
 'via.Transport = string(data[mark:p])': 'MViaTransport',
 'via.Host = string(data[mark:p])': 'MViaHost',
 'via.Port = via.Port * 10 + (uint16(data[p]) - 0x30)': 'MViaPort',
 'via.Param = &Param{name, string(buf[0:amt]), via.Param}': 'MViaParam',
 'name = string(data[mark:p])': 'MName',
 '{ b := data[mark:p - 1] if value != nil { *value = string(b) } else { msg.XHeader = &XHeader{name, b, msg.XHeader} } }': 'MValue',
 'addr = new(Addr)': 'MAddrNew',
 'addr.Display = string(buf[0:amt])': 'MDisplayQ',
 '{ end := p for end > mark && whitespacec(data[end - 1]) { end-- } addr.Display = string(data[mark:end]) }': 'MDisplayU',
 'addr.Uri, err = ParseURI(data[mark:p]) if err != nil { return nil, err }': 'MAddrUri',
 'addr.Param = &Param{name, string(buf[0:amt]), addr.Param}': 'MAddrParam',
 '*addrp = addr addrp = &addr.Next addr = nil': 'MAddr',
 'msg.CallID = string(data[mark:p])': 'MCallID',
 'clen = clen * 10 + (int(data[p]) - 0x30)': 'MClen',
 'ctype = string(data[mark:p])': 'MCtype',
 'msg.CSeq = msg.CSeq * 10 + (int(data[p]) - 0x30)': 'MCSeq',
 'msg.CSeqMethod = string(data[mark:p])': 'MCSeqMethod',
 'msg.Expires = msg.Expires * 10 + (int(data[p]) - 0x30)': 'MExpires',
 'msg.MaxForwards = msg.MaxForwards * 10 + (int(data[p]) - 0x30)': 'MMaxForwards',
 'msg.MinExpires = msg.MinExpires * 10 + (int(data[p]) - 0x30)': 'MMinExpires',
 'clen=0': 'MClen0', 'msg.Expires=0': 'MExpires0', 'msg.MaxForwards=0': 'MMaxForwards0', 'msg.MinExpires=0': 'MMinExpires0',
 'value=nil': 'MValueNil',
}

def msg_act(a):
    m = re.match(r'^addrp=lastAddr\(&msg\.(\w+)\)$', a)
    if m: return 'MAddrp ' + m[1]
    m = re.match(r'^value=&msg\.(\w+)$', a)
    if m: return 'MValuep ' + m[1]
    return MSG_ACTS[a]

def msg_next(acts, t):
    """The ways to continue: Adv n is p++ and state n; Hold n the same position in state n (p-- first);
    Back n the position saved in mark (p = mark - 1 first); Go n is Adv n out of a machine which ends with fgoto header;
    Done is fbreak. The p-- of an action list is moved to its end: no action after it reads p (checked here)."""
    moves = [a for a in acts if a in ('p--', 'p = ( mark) - 1')]
    assert len(moves) <= 1
    rest = []
    seen = False
    for a in acts:
        if a in moves: seen = True; continue
        if seen: assert a == 'amt = 0', acts
        rest.append(a)
    if t[0] == 'out':
        assert not moves and t[1] == 781
        return rest, 'Jump Done'
    if moves:
        return rest, 'Jump (%s %d)' % ('Hold' if moves[0] == 'p--' else 'Back', t[1])
    return rest, ('Jump (Go 280)' if t[1] == 280 else 'Adv %d' % t[1])

def emit_msg(path):
    P = Prog('/repo/sip/msg_parse.go', 'sip.rl')
    out = ['(** Generated by tools/ragel2coq.py from /repo/sip/msg_parse.go (states st_case_N and the trK labels they lead to).',
           '    One entry per set of symbols: the actions executed and where to continue. Symbols 0 to 255 are bytes, 256 is a CR',
           '    for which lookAheadWSP holds. The first entry whose set has the symbol counts. Symbols not listed go to st0. *)',
           'From Verif Require Import Bytes GoLib Auto SdpModel SipTypes.', '']
    rows = []
    emit_rows(P, msg_act, msg_next, 'msg_row', 'row mact mjump', rows)
    lines = {}
    for k, v in P.actions.items():
        if k in ('p--', 'p = ( mark) - 1'): continue
        c = msg_act(k)
        if ' ' in c: continue
        lines[c] = (sorted(v), k)
    out.append('(** The actions, by the lines of /repo/sip/sip.rl they are written on. *)')
    out.append('Inductive mact :=')
    for c, (l, k) in sorted(lines.items(), key=lambda kv: kv[1][0]): out.append('| %s   (* %s: %s *)' % (c, ', '.join(map(str, l)), k.replace('(*', '( *').replace('*)', '* )')))
    out.append('| MAddrp (f : afield)    (* 437-443: addrp=lastAddr(&msg.F) *)')
    out.append('| MValuep (f : sfield)   (* 450-485: value=&msg.F *)')
    out.append('.')
    out.append('(** Where to continue: the next position in the header machine (fgoto header on the last byte of a line), the same position')
    out.append('    (fhold: p--), the position saved in mark (fexec mark), or out of the automaton (fbreak). *)')
    out.append('Inductive mjump := Go (n : positive) | Hold (n : positive) | Back (n : positive) | Done.')
    out.append('')
    out += rows
    out.append('')
    out.append('(** msg_parse.go:33-48. The only state from first_final on which is ever entered is the one fbreak sets, 781. *)')
    out.append('Definition msg_first_final : positive := %d.' % P.first_final)
    for k in ('main', 'header', 'xheader', 'value', 'addr', 'addr_uri', 'addr_angled', 'addr_param', 'via', 'via_param', 'ctype'):
        out.append('Definition msg_en_%s : positive := %d.' % (k, P.en[k]))
    open(path, 'w').write('\n'.join(out) + '\n')

if __name__ == '__main__':
    if len(sys.argv) > 2 and sys.argv[1] == 'msg': emit_msg(sys.argv[2]); sys.exit()
    if len(sys.argv) > 2 and sys.argv[1] == 'uri': emit_uri(sys.argv[2]); sys.exit()
    for path, rl in (('/repo/sip/uri_parse.go', 'uri_parse.rl'), ('/repo/sip/msg_parse.go', 'sip.rl')):
        P = Prog(path, rl)
        sts = P.states()
        rows = {n: P.row(n) for n in sts}
        used = {l for r in rows.values() for l in r.values() if l}
        trs = {l: P.transition(l) for l in used}
        print(path, len(sts), len(trs), P.first_final, P.en)
        for k, v in sorted(P.actions.items(), key=lambda kv: min(kv[1])): print(sorted(v), '|', k)
        print(P.eof()[:1500])
        unused = [l for l in P.labels if l.startswith('tr') and l not in used]
        print('unused', unused)
