#!/usr/bin/env python3
"""Translate the integration tests of /repo/tests/main.rs into Coq examples (theories/TestsConn.v): the recorded traffic of
/repo/tests/files goes through the model the way /repo/src/test.rs sends it through the parser, and the same assertions are
evaluated. Tests of compressed bodies are left out (the codecs are parameters of the model), as are those of very large files.
Any assertion that cannot be translated is listed at the end of the generated file."""
import re, os, sys, ast
ROOT = "/repo/tests"
src = open(ROOT + "/main.rs").read()
MAXFILE = 30000

def coq_bytes(b):
    parts, i = [], 0
    while i < len(b):
        c = b[i]
        j = i
        while j < len(b) and b[j] == c: j += 1
        if j - i >= 40 and 32 <= c < 127 or j - i >= 40:
            parts.append(f"rep {c} {j-i}"); i = j; continue
        if 32 <= c < 127:
            j = i
            while j < len(b) and 32 <= b[j] < 127 and len(set(b[j:j+40])) > (1 if j + 40 <= len(b) else 0): j += 1
            if j == i: j = i + 1
            parts.append('s2b "' + b[i:j].decode().replace('"', '""') + '"'); i = j
        else:
            j = i
            while j < len(b) and not 32 <= b[j] < 127 and len(set(b[j:j+40])) > (1 if j + 40 <= len(b) else 0): j += 1
            if j == i: j = i + 1
            s = b[i:j]
            if s == b"\r\n": parts.append("nl")
            elif s == b"\r\n\r\n": parts.append("nl2")
            else: parts.append("[" + "; ".join(str(x) for x in s) + "]")
            i = j
    return "(" + " ++ ".join(parts) + ")" if parts else "[]"

def split_input(data):
    chunks, cur, client, gap, start = [], b"", True, False, True
    lines = re.findall(rb"[^\n]*\n|[^\n]+\Z", data)
    for l in lines:
        if 4 <= len(l) <= 5 and l[:3] in (b"<<<", b"<><", b">>>", b"><>") and (len(l) == 4 or l[3:4] == b"\r") and l[-1:] == b"\n":
            if cur:
                if cur[-1:] == b"\n": cur = cur[:-1]
                if cur[-1:] == b"\r": cur = cur[:-1]
                chunks.append((client, gap, cur)); cur = b""
            client = l[:1] == b">"; gap = l[0] != l[1]; start = False
        else:
            if start: return chunks
            cur += l
    chunks.append((client, gap, cur))
    return chunks

def unrust(s):
    """A Rust string or byte string literal to bytes."""
    s = s.strip()
    if s.startswith("b"): s = s[1:]
    assert s[0] == '"' and s[-1] == '"', s
    s = s[1:-1]; out = bytearray(); i = 0
    while i < len(s):
        if s[i] == "\\":
            e = s[i+1]
            if e == "x": out.append(int(s[i+2:i+4], 16)); i += 4; continue
            if e == "\n":
                i += 2
                while s[i] in " \n\t": i += 1
                continue
            out.append({"r": 13, "n": 10, "t": 9, "0": 0, "\\": 92, '"': 34}[e]); i += 2; continue
        out += s[i].encode(); i += 1
    return bytes(out)

LIT = r'b?"(?:\\.|[^"\\])*"'
def statements(body):
    out, cur, instr, i = [], "", False, 0
    while i < len(body):
        ch = body[i]
        if instr:
            cur += ch
            if ch == "\\": cur += body[i+1]; i += 1
            elif ch == '"': instr = False
        else:
            if ch == '"': instr = True
            if ch == ";": out.append(cur.strip()); cur = ""
            else: cur += ch
        i += 1
    return out

def squeeze(s):
    """Remove whitespace outside literals; literals are replaced by @k."""
    lits = []
    def f(m): lits.append(m.group(0)); return f"@{len(lits)-1}@"
    s = re.sub(LIT, f, s, flags=re.S)
    return re.sub(r"\s+", "", s), lits

class Skip(Exception): pass
PROG = {"NOT_STARTED": "PNotStarted", "LINE": "PLine", "HEADERS": "PHeaders", "BODY": "PBody", "TRAILER": "PTrailer", "COMPLETE": "PComplete"}
PROTO = {"V1_0": "ProtoV1_0", "V1_1": "ProtoV1_1", "V0_9": "ProtoV0_9", "UNKNOWN": "ProtoUnknown", "INVALID": "ProtoInvalid"}
AUTH = {"DIGEST": "AuDigest", "BASIC": "AuBasic", "UNRECOGNIZED": "AuUnrecognized", "BEARER": "AuBearer"}
FIELD = {"request_method": "x_method t", "request_uri": "x_uri t", "request_hostname": "x_host t", "response_message": "x_msg t",
         "response_content_type": "t_ctype (x_resp t)", "request_auth_username": "x_user t", "request_auth_password": "x_pass t",
         "request_auth_token": "x_token t"}
MSG = {"Ambiguous response C-L value": "DUPLICATE_CONTENT_LENGTH_FIELD_IN_RESPONSE", "Repetition for header": "RESPONSE_HEADER_REPETITION",
       "Unable to match response to request": "UNABLE_TO_MATCH_RESPONSE_TO_REQUEST"}

tests, left_out = [], []
for part in re.split(r"#\[test\]\n", src)[1:]:
    m = re.match(r"(?:#\[.*\]\n)*fn (\w+)", part)
    if not m: continue
    name = m.group(1)
    body = re.sub(r"^\s*//.*$", "", part[part.index("{")+1:], flags=re.M)
    body = re.sub(r"/\*.*?\*/", "", body, flags=re.S)
    # only up to the end of this function
    end = body.index("\n}\n"); rest = body[end:]; body = body[:end]
    cfg, asserts, chunks, ok, missing = [], [], None, True, []
    names, pre = {}, False
    cap = None
    prevfn = None
    single = None
    try:
        if name in ("Generic",): raise Skip("reads a file named in the environment")
        for st in statements(body):
            q, L = squeeze(st)
            lit = lambda k=0: coq_bytes(unrust(L[k]))
            def tx(v):
                if v not in names: raise Skip("unknown transaction " + v)
                return names[v]
            A = lambda i, e: asserts.append(f"on_tx s {i} (fun t => {e})")
            if q in ("letmutt=Test::new(TestConfig())", "letmutcfg=TestConfig()", "letmutt=Test::new(cfg)"): continue
            if q == "letmutt=Test::new_with_callbacks()": pre = True; continue
            if q.startswith("use"): continue
            if q == "cfg.set_tx_auto_destroy(true)": cfg.append("set_c_auto_destroy true"); continue
            if q == "cfg.set_utf8_convert_bestfit(true)": cfg.append("bestfit_on"); continue
            m = re.fullmatch(r"cfg\.set_field_limit\((\d+)\)", q)
            if m: cfg.append(f"set_c_field_limit {m.group(1)}"); continue
            if q == "cfg.set_server_personality(HtpServerPersonality::IDS).unwrap()": cfg.append("ids"); continue
            if q == "cfg.log_level=HtpLogLevel::NONE": cfg.append("set_c_log_level 0"); continue
            if q.startswith("htp_error!"): continue
            m = re.fullmatch(r"cfg\.register_(request|response)_(header|trailer)_data\(.*\)", q)
            if m: cap = "H" + m.group(1).capitalize() + m.group(2).capitalize() + "Data"; continue
            m = re.fullmatch(r"assert!\(t\.run_file\(@0@\)\.is_(ok|err)\(\)\)", q)
            if m:
                f = unrust(L[0]).decode(); path = f"{ROOT}/files/{f}"
                data = open(path, "rb").read()
                if len(data) > MAXFILE: raise Skip(f"{f} is too large")
                chunks = split_input(data); ok = m.group(1) == "ok"; fname = f
                if re.search(rb"content-encoding[^:]*:\s*[a-z]", data, re.I): raise Skip(f"{f} has a compressed body")
                continue
            m = re.fullmatch(r"assert!\(t\.run_slice\(@0@\)\.is_ok\(\)\)", q)
            if m: chunks = split_input(unrust(L[0])); fname = "a literal"; continue
            m = re.fullmatch(r"letinput=@0@", q)
            if m: single = unrust(L[0]); fname = "a literal, byte by byte"; continue
            if q == "t.open_connection(None)": continue
            if q.startswith("forxin0..input.len()"): continue
            m = re.fullmatch(r"(?:let)?(?:mut)?(\w+)=t\.connp\.tx\((\d+)\)\.(?:unwrap\(\)|expect\(@0@\))", q)
            if m: names[m.group(1)] = int(m.group(2)); A(int(m.group(2)), "true"); continue
            q = q.lstrip("}")
            q = re.sub(r"\(&?user_data\.", "(user_data.", q)
            m = re.fullmatch(r"assert_eq!\((\d+),t\.connp\.tx_size\(\)\)", q)
            if m: asserts.append(f"tx_size s =? {m.group(1)}"); continue
            m = re.fullmatch(r"assert_eq!\((?:Htp(Request|Response)Progress::(\w+),(\w+)\.\w+_progress|(\w+)\.\w+_progress,Htp(Request|Response)Progress::(\w+))\)", q)
            if m:
                d, p, v = (m.group(1), m.group(2), m.group(3)) if m.group(1) else (m.group(5), m.group(6), m.group(4))
                A(tx(v), f"prog_eqb (t_prog (x_{d.lower()[:3] if d=='Request' else 'resp'} t)) {PROG[p]}"); continue
            m = re.fullmatch(r"assert_(request|response)_header_eq!\((\w+),@0@,@1@,?\)", q)
            if m: A(tx(m.group(2)), f"header_is (x_{'req' if m.group(1)=='request' else 'resp'} t) {lit(0)} {lit(1)}"); continue
            m = re.fullmatch(r"assert_response_header_flag_contains!\((\w+),@0@,HtpFlags::(\w+),?\)", q)
            if m: A(tx(m.group(1)), f"header_flag (x_resp t) {lit(0)} {m.group(2)}"); continue
            m = re.fullmatch(r"assert_evader_request!\((\w+),@0@\)", q)
            if m: A(tx(m.group(1)), f"evader_request t {lit(0)}"); continue
            m = re.fullmatch(r"assert_evader_response!\((\w+)\)", q)
            if m: A(tx(m.group(1)), "evader_response t"); continue
            m = re.fullmatch(r"assert_evader_chunked!\((\w+)\)", q)
            if m: A(tx(m.group(1)), "evader_chunked t && evader_data s"); continue
            m = re.fullmatch(r"assert_eq!\(([\d_]+),(\w+)\.(request|response)_(entity|message)_len\)", q)
            if m:
                A(tx(m.group(2)), f"t_{'elen' if m.group(4)=='entity' else 'mlen'} (x_{'req' if m.group(3)=='request' else 'resp'} t) =? {m.group(1).replace('_','')}"); continue
            m = re.fullmatch(r"assert!\((\w+)\.(\w+)\.as_ref\(\)\.unwrap\(\)\.eq_slice\(@0@\)\)", q)
            if m and m.group(2) in FIELD: A(tx(m.group(1)), f"is_val ({FIELD[m.group(2)]}) {lit()}"); continue
            m = re.fullmatch(r"assert_eq!\((\w+)\.(\w+),Some\(Bstr::from\(@0@\)\)\)", q)
            if m and m.group(2) in FIELD: A(tx(m.group(1)), f"is_val ({FIELD[m.group(2)]}) {lit()}"); continue
            m = re.fullmatch(r"assert!\((\w+)\.(\w+)\.is_(none|some)\(\)\)", q)
            if m and m.group(2) in FIELD: A(tx(m.group(1)), ("negb " if m.group(3) == "none" else "") + f"(is_some ({FIELD[m.group(2)]}))"); continue
            m = re.fullmatch(r"assert!\((\w+)\.(parsed_uri|parsed_uri_raw)\.as_ref\(\)\.unwrap\(\)\.(\w+)\.as_ref\(\)\.unwrap\(\)\.eq_slice\(@0@\)\)", q)
            if m: A(tx(m.group(1)), f"uri_is ({'x_parsed' if m.group(2)=='parsed_uri' else 'x_raw'} t) u_{m.group(3)} {lit()}"); continue
            m = re.fullmatch(r"assert_eq!\((\d+),(\w+)\.parsed_uri(_raw)?\.as_ref\(\)\.unwrap\(\)\.port_number\.unwrap\(\)\)", q)
            if m: A(tx(m.group(2)), f"match {'x_raw' if m.group(3) else 'x_parsed'} t with Some u => num_is (u_port_number u) {m.group(1)} | None => false end"); continue
            m = re.fullmatch(r"assert_eq!\(Some\((\d+)\),(\w+)\.request_port_number\)", q)
            if m: A(tx(m.group(2)), f"num_is (x_port t) {m.group(1)}"); continue
            m = re.fullmatch(r"assert!\((\w+)\.response_status_number\.eq_num\((\d+)\)\)", q)
            if m: A(tx(m.group(1)), f"eq_num (x_statusn t) {m.group(2)}"); continue
            m = re.fullmatch(r"assert_eq!\((\w+)\.response_status_number,HtpResponseNumber::UNKNOWN\)", q)
            if m: A(tx(m.group(1)), "match x_statusn t with RnUnknown => true | _ => false end"); continue
            m = re.fullmatch(r"assert!\((!?)(\w+)\.is_complete\(\)\)", q)
            if m: A(tx(m.group(2)), ("negb " if m.group(1) else "") + "(is_complete t)"); continue
            m = re.fullmatch(r"assert!\((!?)(\w+)\.is_protocol_0_9\)", q)
            if m: A(tx(m.group(2)), ("negb " if m.group(1) else "") + "(x_is09 t)"); continue
            m = re.fullmatch(r"assert!\((!?)t\.connp\.tx\((\d+)\)\.unwrap\(\)\.is_http_2_upgrade\)", q)
            if m: A(int(m.group(2)), ("negb " if m.group(1) else "") + "(x_h2 t)"); continue
            m = re.fullmatch(r"assert!\((!?)(\w+)\.flags\.is_set\(HtpFlags::(\w+)\)\)", q)
            if m: A(tx(m.group(2)), ("negb " if m.group(1) else "") + f"(fis_set (x_flags t) {m.group(3)})"); continue
            m = re.fullmatch(r"assert!\((!?)t\.connp\.conn\.flags\.is_set\(ConnectionFlags::(\w+)\)\)", q)
            if m: asserts.append(("negb " if m.group(1) else "") + f"(fis_set (s_cflags s) {dict(PIPELINED=1, HTTP_0_9_EXTRA=2)[m.group(2)]})"); continue
            m = re.fullmatch(r"assert_eq!\(HtpProtocol::(\w+),(\w+)\.(request|response)_protocol_number\)", q)
            if m: A(tx(m.group(2)), f"proto_is (t_proton (x_{'req' if m.group(3)=='request' else 'resp'} t)) {PROTO[m.group(1)]}"); continue
            m = re.fullmatch(r"assert_eq!\(HtpAuthType::(\w+),(\w+)\.request_auth_type\)", q)
            if m: A(tx(m.group(2)), f"auth_is (x_auth t) {AUTH[m.group(1)]}"); continue
            m = re.fullmatch(r"assert_eq!\((\d+),(\w+)\.response_headers\.size\(\)\)", q)
            if m: A(tx(m.group(2)), f"(length (t_headers (x_resp t)) =? {m.group(1)})%nat"); continue
            m = re.fullmatch(r"assert!\((\w+)\.request_headers\.get_nocase_nozero\(@0@\)\.is_none\(\)\)", q)
            if m: A(tx(m.group(1)), f"negb (is_some (headers_get_nocase_nozero (t_headers (x_req t)) {lit()}))"); continue
            m = re.fullmatch(r"leth=tx\.request_headers\.get_nocase_nozero\(@0@\)\.unwrap\(\)", q)
            if m: hname = lit(); continue
            m = re.fullmatch(r"assert!\(h\.value\.eq_slice\(@0@\)\)", q)
            if m: A(tx("tx"), f"header_is (x_req t) {hname} {lit()}"); continue
            m = re.match(r"letactual:Vec<\(&\[u8\],&\[u8\]\)>=\(&tx\.(request|response)_headers\)", q)
            if m: hdir = "req" if m.group(1) == "request" else "resp"; continue
            if q.startswith("letexpected:"):
                pairs = [(coq_bytes(unrust(L[2*k])), coq_bytes(unrust(L[2*k+1]))) for k in range(len(L)//2)]
                A(tx("tx"), f"headers_are (x_{hdir} t) [" + "; ".join(f"({a}, {b})" for a, b in pairs) + "]"); continue
            if q.startswith("assert_eq!(actual,expected"): continue
            if q in ("letuser_data=tx.user_data::<MainUserData>().unwrap()", "letresponse_data=&user_data.response_data",
                     "letlogs=t.connp.conn.get_logs()", "letlog_message_count=logs.len()"): continue
            if q == "assert!(user_data.request_data.is_empty())": asserts.append("(length (body_seen HRequestBody s) =? 0)%nat"); continue
            m = re.fullmatch(r"assert_eq!\((\d+),(?:user_data\.)?response_data\.len\(\)\)", q)
            if m: asserts.append(f"(length (body_seen HResponseBody s) =? {m.group(1)})%nat"); continue
            m = (re.fullmatch(r"assert_eq!\(@0@(?:\.as_ref\(\))?,(?:user_data\.)?(request|response)_data\[(\d+)\]\.as_slice\(\)\)", q)
                 or re.fullmatch(r"assert_eq!\(user_data\.(request|response)_data\[(\d+)\]\.as_slice\(\),@0@\.as_ref\(\)\)", q))
            if m: asserts.append(f"nth_is (body_seen H{m.group(1).capitalize()}Body s) {m.group(2)} {lit()}"); continue
            m = re.fullmatch(r"assert_eq!\(user_data\.(request|response)_data\[(\d+)\]\.capacity\(\),(\d+)\)", q)
            if m: asserts.append(f"nth_gap H{m.group(1).capitalize()}Body s {m.group(2)} {m.group(3)}"); continue
            m = re.fullmatch(r"letchunk=&user_data\.response_data\[(\d+)\]", q)
            if m: ck = m.group(1); continue
            m = re.fullmatch(r"assert_eq!\(@0@\.as_ref\(\),chunk\.as_slice\(\)\)", q)
            if m: asserts.append(f"nth_is (body_seen HResponseBody s) {ck} {lit()}"); continue
            m = re.fullmatch(r"assert_eq!\((\d+),(?:t\.connp\.conn\.get_logs\(\)|logs)\.len\(\)\)", q) or re.fullmatch(r"assert_eq!\(log_message_count,(\d+)\)", q)
            if m: asserts.append(f"(length (s_logs s) =? {m.group(1)})%nat"); continue
            m = re.fullmatch(r"assert_eq!\(logs\.(?:first\(\)|get\((\d+)\))\.unwrap\(\)\.msg\.msg,@0@\)", q)
            if m: asserts.append(f'log_is s {m.group(1) or 0} "{MSG[unrust(L[0]).decode()]}"'); continue
            m = re.fullmatch(r"assert_eq!\(logs\.first\(\)\.unwrap\(\)\.msg\.code,HtpLogCode::(\w+)\)", q)
            if m: asserts.append(f'log_is s 0 "{m.group(1)}"'); continue
            m = re.fullmatch(r"assert_eq!\(HtpLogLevel::(\w+),logs\.(?:first\(\)|get\((\d+)\))\.unwrap\(\)\.msg\.level\)", q)
            if m: asserts.append(f"log_level_is s {m.group(2) or 0} {dict(WARNING='LvWarning', ERROR='LvError')[m.group(1)]}"); continue
            m = re.fullmatch(r"assert_eq!\((\d+),\*tx\.user_data::<i32>\(\)\.unwrap\(\)\)", q)
            if m:
                # the callback that precedes the test counts the pieces it expects, in order
                fn = src[:src.index(f"fn {name}()")]
                fn = fn[fn.rindex("fn ConnectionParsing"):]
                want = [coq_bytes(unrust(x)) for x in re.findall(r"if data != (" + LIT + r") \{", fn)]
                assert len(want) == int(m.group(1)), (name, want)
                asserts.append(f"all_are (body_seen {cap} s) [" + "; ".join(want) + "]"); continue
            m = re.fullmatch(r"assert_eq!\(vec!\[(.*)\],user_data\.order\)", q)
            if m:
                H = dict(request_start="HRequestStart", request_complete="HRequestComplete", response_start="HResponseStart",
                         response_complete="HResponseComplete", transaction_complete="HTransactionComplete")
                ws = [unrust(x).decode().split() for x in L]
                asserts.append("order_is s [" + "; ".join(f"({H[w[0]]}, {w[1]})" for w in ws) + "]"); continue
            missing.append(st)
        if single is not None:
            tests.append((name, fname, cfg, "single", single, True, asserts, pre, missing))
        elif chunks is None: raise Skip("no input")
        else: tests.append((name, fname, cfg, "run", chunks, ok, asserts, pre, missing))
    except Skip as e:
        left_out.append((name, str(e)))

debug = len(sys.argv) > 1
out = []
w = out.append
w('''(** The integration tests of /repo/tests/main.rs, on the model. Generated by tools/gen_tests_conn.py; nothing else depends on
    this file. It is a check that the model does what the authors recorded the code as doing, not a proof of anything. *)
From Verif Require Import ModelConn.

Definition nl : bytes := [13; 10].
Definition nl2 : bytes := [13; 10; 13; 10].
Definition rep (c n : N) : bytes := repeat c (N.to_nat n).
(** src/test.rs:133-143: the default configuration with the personality APACHE_2 and url-encoded parameters
    (src/config.rs:452-461). *)
Definition apache (d : decoder_cfg) : decoder_cfg := {|
  double_decode_normalized_path := false; double_decode_normalized_query := false;
  backslash_convert_slashes := false; convert_lowercase := false;
  path_separators_compress := true; path_separators_decode := false; plusspace_decode := true;
  nul_raw_terminates := false; nul_raw_unwanted := UIgnore; control_chars_unwanted := UIgnore;
  allow_space_uri := false; u_encoding_decode := false; u_encoding_unwanted := UIgnore;
  url_encoding_invalid_handling := PRESERVE_PERCENT; url_encoding_invalid_unwanted := U400;
  nul_encoded_terminates := false; nul_encoded_unwanted := UIgnore; utf8_invalid_unwanted := UIgnore;
  utf8_convert_bestfit := false; bestfit := bestfit_default |}.
Definition test_config : config :=
  set_c_ws_unwanted U400 (set_c_parse_urlenc true (set_c_dcfg (apache decoder_default) (set_c_pers APACHE_2 config_default))).
Definition bestfit_on (c : config) : config :=
  let d := c_dcfg c in
  set_c_dcfg {|
    double_decode_normalized_path := double_decode_normalized_path d; double_decode_normalized_query := double_decode_normalized_query d;
    backslash_convert_slashes := backslash_convert_slashes d; convert_lowercase := convert_lowercase d;
    path_separators_compress := path_separators_compress d; path_separators_decode := path_separators_decode d;
    plusspace_decode := plusspace_decode d; nul_raw_terminates := nul_raw_terminates d; nul_raw_unwanted := nul_raw_unwanted d;
    control_chars_unwanted := control_chars_unwanted d; allow_space_uri := allow_space_uri d; u_encoding_decode := u_encoding_decode d;
    u_encoding_unwanted := u_encoding_unwanted d; url_encoding_invalid_handling := url_encoding_invalid_handling d;
    url_encoding_invalid_unwanted := url_encoding_invalid_unwanted d; nul_encoded_terminates := nul_encoded_terminates d;
    nul_encoded_unwanted := nul_encoded_unwanted d; utf8_invalid_unwanted := utf8_invalid_unwanted d;
    utf8_convert_bestfit := true; bestfit := bestfit d |} c.
(** src/config.rs:443-451 applied to the above *)
Definition ids (c : config) : config :=
  set_c_ws_unwanted UIgnore (set_c_pers PersOther (set_c_dcfg {|
  double_decode_normalized_path := false; double_decode_normalized_query := false;
  backslash_convert_slashes := true; convert_lowercase := true;
  path_separators_compress := true; path_separators_decode := true; plusspace_decode := true;
  nul_raw_terminates := false; nul_raw_unwanted := UIgnore; control_chars_unwanted := UIgnore;
  allow_space_uri := false; u_encoding_decode := true; u_encoding_unwanted := UIgnore;
  url_encoding_invalid_handling := PRESERVE_PERCENT; url_encoding_invalid_unwanted := U400;
  nul_encoded_terminates := false; nul_encoded_unwanted := UIgnore; utf8_invalid_unwanted := UIgnore;
  utf8_convert_bestfit := true; bestfit := bestfit_default |} c)).
(** The recognisers the model takes as parameters, on the literals that occur. *)
Definition ip6 (b : bytes) : option bool := Some (bytes_eqb b (s2b "::1")).
Definition b64 (b : bytes) : option bytes :=
  if bytes_eqb b (s2b "aXZhbnI6c2VjcmV0") then Some (s2b "ivanr:secret") else None.
Definition test_env (c : config) : env := mk_env c (fun _ _ => SOk) (fun _ _ _ => DRet true false) ip6 b64.

(** src/test.rs:208-283, [Test::run]. *)
Definition data_chunk (b : bytes) : pdata := set_pd_data (Some b) pd_default.
Definition gap_chunk (n : N) : pdata := set_pd_gap (Some n) pd_default.
Definition rest_of (sd : side) (c : pdata) : M pdata := let* d := get_d sd in ret (pd_consume (d_consumed d) c).
Fixpoint run_chunks (reqb respb : option pdata) (l : list (side * pdata)) : M bool :=
  match l with
  | [] =>
      let* bad := match respb with
                  | Some r => let* rc := data_call SResp (data_chunk (pd_as_slice r)) in ret (sstate_eqb rc SsError)
                  | None => ret false
                  end in
      if bad then ret false else run_op OpClose ;; ret true
  | (SReq, c) :: l =>
      let* rc := data_call SReq c in
      if sstate_eqb rc SsError then ret false
      else if sstate_eqb rc SsDataOther then let* r := rest_of SReq c in run_chunks (Some r) respb l
      else run_chunks reqb respb l
  | (SResp, c) :: l =>
      let* bad := match respb with
                  | Some r => let* rc := data_call SResp (data_chunk (pd_as_slice r)) in ret (sstate_eqb rc SsError)
                  | None => ret false
                  end in
      if bad then ret false
      else
        let* rc := data_call SResp c in
        if sstate_eqb rc SsError then ret false
        else
          let* respb := (if sstate_eqb rc SsDataOther then let* r := rest_of SResp c in ret (Some r) else ret None) in
          let* bad := match reqb with
                      | Some r => let* rc := data_call SReq (data_chunk (pd_as_slice r)) in ret (sstate_eqb rc SsError)
                      | None => ret false
                      end in
          if bad then ret false else run_chunks None respb l
  end.
Definition run_test (pre : bool) (cfg : config) (l : list (side * pdata)) : res bool * st :=
  (when pre (the_tx SResp ;; ret tt) ;; run_op OpOpen ;; run_chunks None None l) (test_env cfg) st_new.
Definition test (pre : bool) (cfg : config) (l : list (side * pdata)) (ok : bool) (checks : st -> list bool) : list bool :=
  match run_test pre cfg l with
  | (ROk r, s) => Bool.eqb r ok :: checks s
  | _ => [false]
  end.
Definition test_single (cfg : config) (b : bytes) (checks : st -> list bool) : list bool :=
  match (run_op OpOpen ;; for_each (fun c => data_call SReq (data_chunk [c]) ;; ret tt) b) (test_env cfg) st_new with
  | (ROk _, s) => checks s
  | _ => [false]
  end.

Definition on_tx (s : st) (i : N) (f : tx -> bool) : bool := match tx_get i (s_txs s) with Some t => f t | None => false end.
Definition is_val (o : option bytes) (b : bytes) : bool := match o with Some v => bytes_eqb v b | None => false end.
Definition num_is (o : option N) (n : N) : bool := match o with Some v => v =? n | None => false end.
Definition uri_is (o : option uri) (f : uri -> option bytes) (b : bytes) : bool := match o with Some u => is_val (f u) b | None => false end.
Definition header_is (d : txdir) (k v : bytes) : bool :=
  match headers_get_nocase_nozero (t_headers d) k with Some h => bytes_eqb (hd_value h) v | None => false end.
Definition header_flag (d : txdir) (k : bytes) (f : N) : bool :=
  match headers_get_nocase_nozero (t_headers d) k with Some h => fis_set (hd_flags h) f | None => false end.
Fixpoint all_are (a b : list bytes) : bool :=
  match a, b with
  | [], [] => true
  | x :: a, y :: b => bytes_eqb x y && all_are a b
  | _, _ => false
  end.
Definition headers_are (d : txdir) (l : list (bytes * bytes)) : bool :=
  all_are (flat_map (fun h => [hd_name h; hd_value h]) (t_headers d)) (flat_map (fun p => [fst p; snd p]) l).
Definition proto_is (a b : protocol) : bool :=
  match a, b with
  | ProtoInvalid, ProtoInvalid | ProtoUnknown, ProtoUnknown | ProtoV0_9, ProtoV0_9 | ProtoV1_0, ProtoV1_0 | ProtoV1_1, ProtoV1_1 => true
  | _, _ => false
  end.
Definition auth_is (a b : authtype) : bool :=
  match a, b with
  | AuBasic, AuBasic | AuDigest, AuDigest | AuBearer, AuBearer | AuUnrecognized, AuUnrecognized => true
  | _, _ => false
  end.
Definition hook_n (h : hook) : N :=
  match h with
  | HRequestStart => 0 | HRequestComplete => 1 | HResponseStart => 2 | HResponseComplete => 3 | HTransactionComplete => 4
  | HRequestBody => 5 | HResponseBody => 6 | HRequestHeaderData => 7 | HRequestTrailerData => 8 | HResponseHeaderData => 9
  | HResponseTrailerData => 10 | _ => 99
  end.
Definition seen (h : hook) (s : st) : list payload :=
  map (fun p => ev_data (fst p)) (filter (fun p => hook_n (ev_hook (fst p)) =? hook_n h) (rev (s_trace s))).
Definition body_seen (h : hook) (s : st) : list bytes := map (fun p => match p with PlData b => b | _ => [] end) (seen h s).
Definition nth_is (l : list bytes) (n : nat) (b : bytes) : bool := match nth_error l n with Some x => bytes_eqb x b | None => false end.
Definition nth_gap (h : hook) (s : st) (n : nat) (len : N) : bool := match nth_error (seen h s) n with Some (PlGap m) => m =? len | _ => false end.
Definition log_at (s : st) (n : nat) : option logmsg := nth_error (rev (s_logs s)) n.
Definition log_is (s : st) (n : nat) (c : string) : bool := match log_at s n with Some m => String.eqb (lg_code m) c | None => false end.
Definition log_level_is (s : st) (n : nat) (l : N) : bool := match log_at s n with Some m => lg_level m =? l | None => false end.
Fixpoint order_eqb (a b : list (N * N)) : bool :=
  match a, b with
  | [], [] => true
  | (x, i) :: a, (y, j) :: b => (x =? y) && (i =? j) && order_eqb a b
  | _, _ => false
  end.
Definition order_is (s : st) (l : list (hook * N)) : bool :=
  order_eqb (map (fun p => (hook_n (ev_hook (fst p)), ev_tx (fst p))) (filter (fun p => hook_n (ev_hook (fst p)) <? 5) (rev (s_trace s))))
            (map (fun p => (hook_n (fst p), snd p)) l).
(** tests/common.rs:139-204 *)
Definition evader_request (t : tx) (url : bytes) : bool :=
  is_val (x_method t) (s2b "GET") && is_val (x_uri t) url && proto_is (t_proton (x_req t)) ProtoV1_1 &&
  header_is (x_req t) (s2b "host") (s2b "evader.example.com").
Definition evader_response (t : tx) : bool :=
  proto_is (t_proton (x_resp t)) ProtoV1_1 && eq_num (x_statusn t) 200 &&
  header_is (x_resp t) (s2b "Content-type") (s2b "application/octet-stream") &&
  header_is (x_resp t) (s2b "Content-disposition") (s2b "attachment; filename=""eicar.txt""") &&
  is_some (headers_get_nocase_nozero (t_headers (x_resp t)) (s2b "Connection")).
Definition evader_chunked (t : tx) : bool :=
  coding_eqb (t_coding (x_resp t)) CdChunked && header_is (x_resp t) (s2b "Yet-Another-Header") (s2b "foo") &&
  (t_elen (x_resp t) =? 68) && (t_mlen (x_resp t) =? 156) &&
  prog_eqb (t_prog (x_req t)) PComplete && prog_eqb (t_prog (x_resp t)) PComplete.
Definition evader_data (s : st) : bool :=
  (length (body_seen HRequestBody s) =? 0)%nat &&
  all_are (body_seen HResponseBody s) (map s2b ["X5O!"; "P%@A"; "P[4\\"; "PZX5"; "4(P^"; ")7CC"; ")7}$"; "EICA"; "R-ST"; "ANDA";
    "RD-A"; "NTIV"; "IRUS"; "-TES"; "T-FI"; "LE!$"; "H+H*"]%string).
'''.replace("P[4\\\\", "P[4\\"))
untr = []
for (name, fname, cfg, kind, inp, ok, asserts, pre, missing) in tests:
    c = "test_config"
    for f in cfg: c = f"({f} {c})" if not f.startswith("set_") else f"({f} {c})"
    cks = "(fun s => [" + ";\n    ".join(asserts) + "])" if asserts else "(fun _ => [])"
    if kind == "single": t = f"test_single {c} {coq_bytes(inp)}\n   {cks}"
    else:
        cl = ";\n   ".join(f"({'SReq' if cli else 'SResp'}, {'gap_chunk '+str(len(b)) if gap else 'data_chunk '+coq_bytes(b)})" for cli, gap, b in inp)
        t = f"test {'true' if pre else 'false'} {c}\n  [{cl}] {'true' if ok else 'false'}\n   {cks}"
    if debug:
        w('Eval vm_compute in ("%s"%%string, %s).\n' % (name, t))
    else:
        w(f"(** {name}: {fname} *)\nExample T_{name} : forallb (fun b => b)\n ({t}) = true.\nProof. vm_compute. reflexivity. Qed.\n")
    for m in missing: untr.append((name, " ".join(m.split())))
w("(** Not translated:")
for n, m in untr: w(f"    {n}: {m}".replace('"', "'").replace("(*", "( *").replace("*)", "* )"))
w("    Left out:")
for n, m in left_out: w(f"    {n}: {m}")
w("*)")
open(sys.argv[1] if debug else "/verif/rocq/theories/TestsConn.v", "w").write("\n".join(out) + "\n")
print(len(tests), "tests", len(untr), "untranslated", len(left_out), "left out")
for x in untr: print("  ", x)
for x in left_out: print("  ", x)
