#!/usr/bin/env python3
"""Reads the tables of the repository's own unit tests (Go composite literals) and writes rocq/theories/RepoTests.v, in which
the model computes what each test expects of the code. These are examples, not proofs: they compare the model with the code's tests."""
import re, sys
REPO = '/repo/'
OUT = sys.argv[1] if len(sys.argv) > 1 else '/verif/rocq/theories/RepoTests.v'

# ---- Go literals ----
TOK = re.compile(rb'''\s+|//[^\n]*|(?P<str>"(?:[^"\\]|\\.)*")|(?P<raw>`[^`]*`)|(?P<num>-?(?:0x[0-9a-fA-F]+|\d+(?:\.\d+)?))|(?P<id>[A-Za-z_][A-Za-z0-9_.]*)|(?P<op>[{}()\[\],:+&])''', re.S)
def toks(s):
    i, out = 0, []
    while i < len(s):
        m = TOK.match(s, i)
        assert m, s[i:i+40]
        i = m.end()
        if m.lastgroup: out.append((m.lastgroup, m.group(m.lastgroup)))
    return out
ESC = {b'n': b'\n', b'r': b'\r', b't': b'\t', b'"': b'"', b'\\': b'\\', b"'": b"'"}
def unq(s):
    s = s[1:-1]; out = b''; i = 0
    while i < len(s):
        c = s[i:i+1]
        if c != b'\\': out += c; i += 1; continue
        d = s[i+1:i+2]
        if d == b'x': out += bytes([int(s[i+2:i+4], 16)]); i += 4
        elif d == b'u': out += chr(int(s[i+2:i+6], 16)).encode(); i += 6
        else: out += ESC[d]; i += 2
    return out
class P:
    def __init__(self, t, env): self.t, self.i, self.env = t, 0, env
    def peek(self): return self.t[self.i] if self.i < len(self.t) else (None, None)
    def next(self): self.i += 1; return self.t[self.i-1]
    def eat(self, op):
        k, v = self.next(); assert v == op, (v, op, self.t[self.i-5:self.i+5])
    def expr(self):
        v = self.prim()
        while self.peek()[1] == b'+': self.next(); v = v + self.prim()
        return v
    def body(self):  # after '{'
        pos, keyed = [], {}
        while self.peek()[1] != b'}':
            if self.peek()[0] == 'id' and self.t[self.i+1][1] == b':':
                k = self.next()[1].decode(); self.next(); keyed[k] = self.expr()
            else: pos.append(self.expr())
            if self.peek()[1] == b',': self.next()
        self.eat(b'}')
        return keyed if keyed else pos
    def prim(self):
        k, v = self.next()
        if k == 'str': return unq(v)
        if k == 'raw': return v[1:-1]
        if k == 'num': return float(v) if b'.' in v else int(v, 0)
        if v == b'&': return self.prim()
        if v == b'(': e = self.expr(); self.eat(b')'); return e
        if v == b'{': return self.body()
        if v == b'[':
            while self.next()[1] != b']': pass
            if self.peek()[1] == b'[': return self.prim()
            e = self.prim(); return e[1] if isinstance(e, tuple) else e
        if k == 'id':
            if v in (b'true', b'false'): return v == b'true'
            if v == b'nil': return None
            n = self.peek()[1]
            if n == b'{': self.next(); b = self.body(); return (v.decode(), b)
            if n == b'(': self.next(); e = self.expr(); self.eat(b')'); return e if v in (b'byte', b'uint8', b'string') else (v.decode(), e)
            if n == b'[': return self.prim()
            return self.env.get(v.decode(), v.decode())
        raise Exception((k, v))
def literal(src, name, env={}):
    """the value of  name = <literal>"""
    m = re.search(rb'(?m)^\s*(?:var )?' + name.encode() + rb'\s*= ', src)
    t = toks(src[m.end():cut(src, m.end())])
    return P(t, env).expr()
def cut(src, i):
    """where the literal ends: tokens are read until the brackets are closed and no + follows"""
    depth, j, last = 0, i, b''
    while True:
        m = TOK.match(src, j)
        if not m: return j
        if m.lastgroup:
            v = m.group(m.lastgroup)
            if depth == 0 and last not in (b'', b'+', b'[', b']', b'&') and not (v in b'+{([' or v == b'+') : return j
            if v in (b'{', b'(', b'['): depth += 1
            if v in (b'}', b')', b']'): depth -= 1
            last = v
        j = m.end()

# ---- Coq terms ----
def S(b):
    if not b: return '[]'
    parts = re.findall(rb'[\x20-\x7e]+|[^\x20-\x7e]+', b); out = []
    for p in parts:
        if 0x20 <= p[0] <= 0x7e: out.append('B "%s"' % p.decode().replace('"', '""'))
        else: out.append('[' + '; '.join('x%02x' % c for c in p) + ']')
    return '(' + ' ++ '.join(out) + ')'
def f(x, k, d=b''):
    x = x[1] if isinstance(x, tuple) else x
    if isinstance(x, list): assert not x; return d
    return x.get(k, d)
def chain(x):
    out = []
    while x is not None: out.append(x); x = f(x, 'Next', None)
    return out
def L(xs): return '[' + '; '.join(xs) + ']'
def params(x): return L('(%s, %s)' % (S(f(p, 'Name')), S(f(p, 'Value'))) for p in chain(x))
def Z(n): return '(%d)' % n if n < 0 else str(n)
def uri(x): return 'mkuri %s %s %s %s %s %s %s' % (S(f(x,'Scheme')), S(f(x,'User')), S(f(x,'Pass')), S(f(x,'Host')), Z(f(x,'Port',0)), params(f(x,'Param',None)), params(f(x,'Header',None)))
def opt(x, g): return 'None' if x is None else '(Some (%s))' % g(x)
def addr(x): return 'mkaddr %s %s %s' % (opt(f(x,'Uri',None), uri), S(f(x,'Display')), params(f(x,'Param',None)))
def addrs(x): return L(addr(a) for a in chain(x))
def via(x): return 'mkvia %s %s %s %s %s %s' % (S(f(x,'Protocol')), S(f(x,'Version')), S(f(x,'Transport')), S(f(x,'Host')), Z(f(x,'Port',0)), params(f(x,'Param',None)))
def codec(x): return 'mkcodec %s %s %s %s %s' % (Z(f(x,'PT',0)), S(f(x,'Name')), Z(f(x,'Rate',0)), S(f(x,'Param')), S(f(x,'Fmtp')))
def media(x): return 'mkmedia %s %s %s' % (S(f(x,'Proto')), Z(f(x,'Port',0)), L(codec(c) for c in f(x,'Codecs',[])))
def boolc(b): return 'true' if b else 'false'
def attrs(x): return L('(%s, %s)' % (S(a[0]), S(a[1]) if len(a) > 1 else '[]') for a in (x or []))
def sdp(x):
    o = f(x, 'Origin', {})
    return 'mksdp (mkorigin %s %s %s %s) %s %s %s %s %s %s %s %s %s %s' % (S(f(o,'User')), S(f(o,'ID')), S(f(o,'Version')), S(f(o,'Addr')), S(f(x,'Addr')), opt(f(x,'Audio',None), media), opt(f(x,'Video',None), media), S(f(x,'Session')), S(f(x,'Time')), Z(f(x,'Ptime',0)), boolc(f(x,'SendOnly',False)), boolc(f(x,'RecvOnly',False)), attrs(f(x,'Attrs',None)), attrs(f(x,'Other',None)))
AF = 'Contact From PAssertedIdentity RecordRoute RemotePartyID Route To'.split()
SF = 'Accept AcceptContact AcceptEncoding AcceptLanguage AlertInfo Allow AllowEvents AuthenticationInfo Authorization CallInfo ContentDisposition ContentEncoding ContentLanguage Date ErrorInfo Event InReplyTo MIMEVersion Organization Priority ProxyAuthenticate ProxyAuthorization ProxyRequire ReferTo ReferredBy ReplyTo Require RetryAfter Server Subject Supported Timestamp Unsupported UserAgent Warning WWWAuthenticate'.split()
def payload(x):
    k, b = x
    if k.endswith('MiscPayload'): return 'Misc %s %s' % (S(f(b,'T')), S(f(b,'D')))
    assert k.endswith('SDP'), k
    return 'PSdp (%s)' % sdp(x)
def msg(x):
    used = {'VersionMajor','VersionMinor','Method','Request','Status','Phrase','Payload','Via','CallID','CSeq','CSeqMethod','MaxForwards','Expires','MinExpires','XHeader'} | set(AF) | set(SF)
    b = x[1] if isinstance(x, tuple) else x
    assert set(b) <= used, set(b) - used
    return 'flat_expected %s %s %s %s %s %s %s %s %s %s %s %s %s %s %s %s %s' % (Z(f(x,'VersionMajor',0)), Z(f(x,'VersionMinor',0)), S(f(x,'Method')), opt(f(x,'Request',None), uri), Z(f(x,'Status',0)), S(f(x,'Phrase')), opt(f(x,'Payload',None), payload),
        L(addrs(f(x,a,None)) for a in AF), L(via(v) for v in chain(f(x,'Via',None))), S(f(x,'CallID')), Z(f(x,'CSeq',0)), S(f(x,'CSeqMethod')), Z(f(x,'MaxForwards',0)), Z(f(x,'Expires',0)), Z(f(x,'MinExpires',0)),
        L(S(f(x,s)) for s in SF), params(f(x,'XHeader',None)))

out = []
def emit(name, goal): out.append('Example %s : %s.\nProof. vm_compute. reflexivity. Qed.' % (name, goal))

src = open(REPO + 'sip/uri_test.go', 'rb').read()
for n, t in enumerate(literal(src, 'uriTests')):
    s = S(t['s'])
    if 'e' in t: emit('uri_%d' % n, 'parse_uri %s = PErr %s' % (s, S(t['e'][1])))
    else:
        emit('uri_%d' % n, 'parse_uri %s = POk (%s)' % (s, uri(t['uri'])))
        if not t.get('skipFormat'): emit('uri_format_%d' % n, 'uri_append (%s) = %s' % (uri(t['uri']), s))

src = open(REPO + 'sip/msg_test.go', 'rb').read()
env = {k: literal(src, k) for k in ('torture2', 'flowroute')}
for n, t in enumerate(literal(src, 'msgTests', env)):
    s = S(t.get('s', b''))
    if 'e' in t:
        k, b = t['e']
        if k == 'sip.MsgIncompleteError': assert f(b, 'Msg', []) in ([], t['s']); emit('msg_%d' % n, 'parse_msg %s = MErr EIncomplete' % s)
        elif k == 'sip.MsgParseError': emit('msg_%d' % n, 'parse_msg %s = MErr (EParse %d)' % (s, f(b, 'Offset')))
        else: emit('msg_%d' % n, 'msg_fails (parse_msg %s) %s = true' % (s, S(b)))
    else: emit('msg_%d' % n, 'option_map flat (accepted (parse_msg %s)) = Some (%s)' % (s, msg(t['msg'])))

src = open(REPO + 'sip/addr_test.go', 'rb').read()
for n, t in enumerate(literal(src, 'addrTests')):
    s = S(t['s'])
    emit('addr_%d' % n, 'option_map (fun m => addrs m Contact) (accepted (parse_msg (B "SIP/2.0 900 ParseAddrBytes()" ++ CRLF ++ B "Contact:" ++ %s ++ CRLF ++ CRLF))) = Some %s' % (s, addrs(t['addr'])))
    emit('addr_format_%d' % n, 'addr_append %s = %s' % (addrs(t['addr']), S(t.get('s_canonical') or t['s'])))
# TestReversed
rev = re.search(rb'a := (&sip\.Addr\{.*?\n\t\})', src, re.S).group(1)
emit('addr_reversed', 'map (fun a => option_map u_host (a_uri a)) (addr_Reversed %s) = [Some (B "2.3.4.5"); Some (B "1.2.3.4")]' % addrs(P(toks(rev), {}).expr()))

src = open(REPO + 'sdp/sdp_test.go', 'rb').read()
for n, t in enumerate(literal(src, 'sdpTests')):
    # the test compares every field but Other; Attrs by their elements
    emit('sdp_%d' % n, 'match sdp_parse %s with Ok (inl s) => Some (no_other s) | _ => None end = Some (%s)' % (S(t['s']), sdp(t['sdp'])))
    emit('sdp_format_%d' % n, 'sdp_append (B "never") (%s) = %s' % (sdp(t['sdp']), S(t.get('s2') or t['s'])))

src = open(REPO + 'sip/quote_test.go', 'rb').read()
for n, t in enumerate(literal(src, 'quoteTests')): emit('quote_%d' % n, 'appendQuoted %s = %s' % (S(t['in']), S(t['out'])))
src = open(REPO + 'sip/escape_test.go', 'rb').read()
for n, t in enumerate(literal(src, 'escapeTests')): emit('escape_%d' % n, 'appendEscaped %s %s = %s' % (t['p'], S(t['in']), S(t['out'])))

src = open(REPO + 'rtp/rtp_test.go', 'rb').read()
h = P(toks(re.search(rb'h := (rtp\.Header\{.*?\n\t\})', src, re.S).group(1)), {}).expr()
emit('rtp_header', 'let h := mkheader %s %s %s %s %s %s in header_read (header_write h []) = Ok (inl h)' % (boolc(f(h,'Pad')), boolc(f(h,'Mark')), Z(f(h,'PT')), Z(f(h,'Seq')), Z(f(h,'TS')), Z(f(h,'Ssrc'))))

src = open(REPO + 'dsp/dsp_test.go', 'rb').read()
tab = literal(src, 'ulawTable')
out.append('Definition ulawTable : list Z := %s.' % L(Z(n) for n in tab))
emit('ulaw_to_linear', 'map (fun n => UlawToLinear (Z.of_nat n)) (seq 0 256) = map Some ulawTable')
emit('linear_to_ulaw', '(LinearToUlaw 0, LinearToUlaw (-100)) = (Some 255, Some 114)')
emit('ulaw_there_and_back', 'map (fun x => match LinearToUlaw x with Some u => UlawToLinear u | None => None end) ulawTable = map Some ulawTable')
emit('mix', """match L16MixSat160 (fun p => if p <? 4096 then (p - 1024) / 2 else 666) 1024 4096 with
  | Some m => (map (fun n => m (1024 + 2 * Z.of_nat n)) (seq 0 160), map (fun n => m (4096 + 2 * Z.of_nat n)) (seq 0 160)) = (map (fun n => Z.of_nat n + 666) (seq 0 160), repeat 666 160)
  | None => False
  end""")
src = open(REPO + 'dsp/awgn_test.go', 'rb').read()
# math.Log and math.Pow are oracles of the model: they are given here as tables of the values that the test needs
import math
want = P(toks(re.search(rb'samp := (\[\]int16\{.*?\})', src).group(1)), {}).expr()
vol = float(re.search(rb'NewAWGN\((-?[\d.]+)\)', src).group(1))
def simulate():
    m1, ia1, ic1, m2, ia2, ic2, m3, ia3, ic3 = 259200, 7141, 54773, 134456, 8121, 28411, 243000, 4561, 51349
    rm1, rm2 = 1.0/m1, 1.0/m2
    x = (vol - 6.16) / 20.0; y = math.pow(10.0, x); rms = y * 32768.0
    a = (ic1 + 7162534) % m1; a = (ia1*a + ic1) % m1; b = a % m2; a = (ia1*a + ic1) % m1; c = a % m3
    st = [a, b, c]; r = [0.0]*98; logs = []; got = []; gset = [None]
    for j in range(1, 98):
        st[0] = (ia1*st[0] + ic1) % m1; st[1] = (ia2*st[1] + ic2) % m2; r[j] = (st[0] + st[1]*rm2)*rm1
    def ran():
        st[0] = (ia1*st[0] + ic1) % m1; st[1] = (ia2*st[1] + ic2) % m2; st[2] = (ia3*st[2] + ic3) % m3
        j = 1 + (97*st[2])//m3; v = r[j]; r[j] = (st[0] + st[1]*rm2)*rm1; return v
    for _ in want:
        if gset[0] is None:
            while True:
                v1 = 2.0*ran() - 1.0; v2 = 2.0*ran() - 1.0; q = v1*v1 + v2*v2
                if q < 1.0: break
            logs.append((q, math.log(q))); fac = math.sqrt(-2.0*math.log(q)/q); gset[0] = v1*fac; amp = v2*fac*rms
        else: amp = gset[0]*rms; gset[0] = None
        got.append(int(amp))
    assert got == want, (got, want)
    return (x, y), logs
def F(x):
    n, d = x.as_integer_ratio(); return '(binary_normalize 53 1024 _ _ mode_NE %s (%d) false)' % (Z(n), -(d.bit_length() - 1))
pw, logs = simulate()
out.append('Definition table (l : list (f64 * f64)) (x : f64) : f64 := match find (fun p => Beqb (fst p) x) l with Some p => snd p | None => B754_nan end.')
out.append('Definition test_pow10 : f64 -> f64 := table [(%s, %s)].' % (F(pw[0]), F(pw[1])))
out.append('Definition test_log : f64 -> f64 := table %s.' % L('(%s, %s)' % (F(a), F(b)) for a, b in logs))
out.append("""Fixpoint gets (n : nat) (s : noise) : list Z :=
  match n with O => [] | S n => match noise_get test_log 0 100 s with Some (s, v) => v :: gets n s | None => [] end end.""")
emit('awgn', 'gets %d (NewAWGN test_pow10 (of_int (%d))) = %s' % (len(want), int(vol), L(Z(w) for w in want)))

# ---- tables of the code itself: the model's transcription against the text of the Go files ----
src = open(REPO + 'sip/status.go', 'rb').read()
codes = {m.group(1): int(m.group(2)) for m in re.finditer(rb'(?m)^\t(Status\w+)\s*= (\d+)', src)}
body = src[src.index(b'var phrases'):]
phr = [(codes[m.group(1)], m.group(2)) for m in re.finditer(rb'(?m)^\t(Status\w+):\s*"([^"]*)"', body)]
assert len(phr) == len(re.findall(rb'(?m)^\tStatus', body)) and len(dict(phr)) == len(phr)
out.append('Definition phrases : list (Z * bytes) := %s.' % L('(%d, %s)' % (c, S(s)) for c, s in phr))
emit('phrase_table', 'map (fun p => Phrase (fst p)) phrases = map snd phrases')
src = open(REPO + 'sdp/codecs.go', 'rb').read()
named = {}
for m in re.finditer(rb'(?m)^\t(\w+)\s*= Codec(\{[^}]*\})', src): named[m.group(1).decode()] = P(toks(m.group(2)), {}).expr()
rows = [(int(m.group(1)), m.group(2)) for m in re.finditer(rb'(?m)^\t\t(\d+):\s*(\{[^}]*\}|\w+)', src)]
out.append('Definition codecs : list (Z * codec) := %s.' % L('(%d, %s)' % (n, codec(named[v.decode()] if v.decode() in named else P(toks(v), {}).expr())) for n, v in rows))
emit('codec_table', 'map (fun p => StandardCodecs (fst p)) codecs = map (fun p => Some (snd p)) codecs')
emit('codecs_named', '[ULAWCodec; DTMFCodec; Opus] = %s' % L(codec(named[k]) for k in ('ULAWCodec', 'DTMFCodec', 'Opus')))
src = open(REPO + 'rtp/session.go', 'rb').read()
dt = {ord(m.group(1)): int(m.group(2)) for m in re.finditer(rb"'(.)': (\d+)", re.search(rb'dtmfCodes = \[256\]byte\{(.*)\}', src).group(1))}
byte_list = '(map byte_of [%s])' % '; '.join(map(str, range(256)))
out.append('Definition byte_of (n : nat) : byte := match Byte.of_nat n with Some b => b | None => x00 end.')
emit('dtmf_codes', 'map dtmfCodes (map byte_of (seq 0 256)) = %s' % L(str(dt.get(n, 0)) for n in range(256)))
const = {m.group(1).decode(): int(m.group(2)) for m in re.finditer(rb'(?m)^\t(rtpBind\w+|dtmf\w+)\s*= (\d+)$', src)}
emit('rtp_constants', '(Z.of_nat rtpBindMaxAttempts, rtpBindPortMin, rtpBindPortMax, dtmfVolume, dtmfDuration, dtmfInterval) = (%d, %d, %d, %d, %d, %d)' % tuple(const[k] for k in ('rtpBindMaxAttempts','rtpBindPortMin','rtpBindPortMax','dtmfVolume','dtmfDuration','dtmfInterval')))
src = open(REPO + 'rtp/dtmf.go', 'rb').read()
to = {int(m.group(1)): ord(m.group(2)) for m in re.finditer(rb"case (\d+):\n\t\treturn '(.)', nil", src)}
emit('dtmf_to_char', 'map (fun n => DtmfToChar (Z.of_nat n)) (seq 0 256) = map (option_map byte_of) %s' % L('Some %d%%nat' % to[n] if n in to else 'None' for n in range(256)))
ev = {}
for m in re.finditer(rb"case ((?:'.'(?:, )?)+):\n\t\tevent = (\d+)", src):
    for c in re.findall(rb"'(.)'", m.group(1)): ev[ord(c)] = int(m.group(2))
emit('char_to_dtmf', 'map CharToDtmf (map byte_of (seq 0 256)) = %s' % L('Some %d' % ev[n] if n in ev else 'None' for n in range(256)))
# character classes: the calls of init in sip/charsets.go
src = open(REPO + 'sip/charsets.go', 'rb').read()
def chars(s): return [eval(b"b" + x) for x in re.findall(rb"'(?:\\.|[^'\\])'", s)]
MARK = chars(re.search(rb'func charsetAddMark.*?\n\}', src, re.S).group(0))
AN = []
for a, b in re.findall(rb"charsetAddRange\(mask, '(.)', '(.)'\)", src): AN += [bytes([c]) for c in range(ord(a), ord(b) + 1)]
sets = {}
init = re.search(rb'func init\(\) \{.*?\n\}', src, re.S).group(0)
for fn, mask, args in re.findall(rb'(charsetAdd\w*)\(&(\w+)Mask(?:, (.*))?\)', init):
    s = sets.setdefault(mask.decode(), set())
    if fn == b'charsetAddAlphaNumeric': s |= set(AN)
    elif fn == b'charsetAddMark': s |= set(MARK)
    elif fn == b'charsetAdd': s |= set(chars(args))
    else: a, b = [int(x, 16) for x in args.split(b', ')]; s |= {bytes([c]) for c in range(a, b + 1)}
for k, s in sorted(sets.items()):
    emit('class_' + k, 'map %s (map byte_of (seq 0 256)) = %s' % (k, L(boolc(bytes([n]) in s) for n in range(256))))
# Msg.Append: the names and the order of the header lines, from the text of the function
src = open(REPO + 'sip/msg.go', 'rb').read()
body = re.search(rb'func \(msg \*Msg\) Append.*?\n\}', src, re.S).group(0)
lines = re.findall(rb'b\.WriteString\("([A-Za-z-]+: )"\)\n\t+(?:b\.WriteString\((?:strconv\.Itoa\()?msg\.(\w+)\)?\)|msg\.(\w+)\.Append\(b\)|(viap)\.Append\(b\))', body)
text, n = b'OPTIONS sip:h SIP/2.0\r\n', 1000
NUM = {}
for name, a, b, v in lines:
    fld = (a or b or v).decode()
    if fld == 'viap': text += b'Via: SIP/2.0/UDP v\r\n'
    elif fld in AF: text += name + b'<sip:' + fld.encode() + b'>\r\n'
    elif fld in SF: text += name + fld.encode() + b'\r\n'
    elif fld == 'CallID': text += name + b'CallID\r\n'
    else:
        n += 1; NUM[fld] = n; text += name + str(n).encode() + (b' OPTIONS' if fld == 'CSeq' else b'') + b'\r\n'
assert set(NUM) == {'CSeq', 'MaxForwards', 'Expires', 'MinExpires'}, NUM
written = [(a or b).decode() for _, a, b, _ in lines]
assert set(SF) - set(written) == {'AcceptContact'} and not set(AF) - set(written)
emit('append_order', """msg_append [] (mkmsg 2 0 (B "OPTIONS") (Some (mkuri (B "sip") [] [] (B "h") 0 [] [])) 0 [] None None
    (fun f => [mkaddr (Some (mkuri (B "sip") [] [] (match f with %s end) 0 [] [])) [] []]) [mkvia (B "SIP") (B "2.0") (B "UDP") (B "v") 5060 []] (B "CallID") %d (B "OPTIONS") %d %d %d
    (fun f => match f with %s end) [(B "X", B "y")])
  = %s""" % (' | '.join('%s => B "%s"' % (a, a) for a in AF), NUM['CSeq'], NUM['MaxForwards'], NUM['Expires'], NUM['MinExpires'], ' | '.join('%s => B "%s"' % (s, s) for s in SF), S(text + b'X: y\r\nContent-Length: 0\r\n\r\n')))

print(len([o for o in out if o.startswith('Example')]), 'examples')
HEAD = '''(** The repository's own unit tests, run on the model. Generated by tools/gotests.py from sip/uri_test.go, sip/msg_test.go, sip/addr_test.go,
    sip/quote_test.go, sip/escape_test.go, sdp/sdp_test.go, rtp/rtp_test.go, dsp/dsp_test.go and dsp/awgn_test.go. These are examples and not proofs: they show that the
    model gives what the authors' tests expect of the code. Those at the end compare the tables of the model (status phrases, codecs, telephone events,
    character classes, the order of header lines) with the text of sip/status.go, sdp/codecs.go, rtp/session.go, rtp/dtmf.go, sip/charsets.go and
    sip/msg.go. *)
From Flocq Require Import IEEE754.BinarySingleNaN.
From Verif Require Import Bytes GoLib SdpModel SipText SipTypes SipAppend UriModel MsgModel MsgErrorModel DspModel RtpModel ListenModel AwgnFloat.
Local Open Scope Z_scope.

(** Two messages are compared field by field: a message without its functions. *)
Definition flat_expected (maj min : Z) (me : bytes) (rq : option uri) (st : Z) (ph : bytes) (pl : option payload) (ad : list (list addr)) (vi : list via) (ci : bytes) (cs : Z) (cm : bytes) (mf ex me' : Z) (ss : list bytes) (xh : list (bytes * bytes)) :=
  (maj, min, me, rq, st, ph, pl, ad, vi, ci, cs, cm, (mf, ex, me'), ss, xh).
Definition flat (m : msg) :=
  flat_expected (vmaj m) (vmin m) (method m) (request m) (status m) (phrase m) (pay m) (map (addrs m) [%s]) (vias m) (callid m) (cseq m) (cseqmethod m) (maxforwards m) (expires m) (minexpires m)
    (map (strs m) [%s]) (xheader m).
Definition accepted (r : mresult) : option msg := match r with MOk m => Some m | _ => None end.
(** the text of the errors that are made with errors.New or fmt.Errorf *)
Definition msg_fails (r : mresult) (e : bytes) : bool :=
  match r with
  | MErr (ELength n have) => bseq e (B "Content-Length incorrect: " ++ itoa n ++ B " != " ++ itoa (Z.of_nat have))
  | MErr (EUri t) => bseq e t
  | _ => false
  end.
Definition no_other (s : sdp) : sdp := mksdp (s_origin s) (s_addr s) (s_audio s) (s_video s) (s_session s) (s_time s) (s_ptime s) (s_sendonly s) (s_recvonly s) (s_attrs s) [].

''' % ('; '.join(AF), '; '.join(SF))
open(OUT, 'w').write(HEAD + '\n'.join(out) + '\n')
