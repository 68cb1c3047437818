#!/usr/bin/env python3
"""Translate the literal test cases of /repo/src/headers.rs into Coq examples (theories/TestsHeaders.v), so that the model
is checked against the expectations the authors wrote for the code."""
import re, os
src = open("/repo/src/headers.rs").read()
src = src[src.index("mod test {"):]

class P:
    def __init__(s, t): s.t, s.i = t, 0
    def ws(s):
        while s.i < len(s.t) and s.t[s.i] in " \n\t": s.i += 1
    def eat(s, x):
        s.ws()
        assert s.t.startswith(x, s.i), (x, s.t[s.i:s.i+60])
        s.i += len(x)
    def at(s, x):
        s.ws(); return s.t.startswith(x, s.i)
    def seq(s, close):
        out = []
        while not s.at(close):
            out.append(s.expr())
            if s.at(","): s.eat(",")
        s.eat(close)
        return out
    def string(s):
        s.eat('"'); out = []
        while s.t[s.i] != '"':
            c = s.t[s.i]
            if c == "\\":
                e = s.t[s.i+1]
                if e == "x": out.append(int(s.t[s.i+2:s.i+4], 16)); s.i += 4; continue
                out.append({"r": 13, "n": 10, "t": 9, "0": 0, "\\": 92, '"': 34}[e]); s.i += 2; continue
            out.append(ord(c)); s.i += 1
        s.i += 1
        return ("bytes", out)
    def atom(s):
        s.ws()
        if s.at('b"'): s.eat("b"); r = s.string()
        elif s.at("b!("): s.eat("b!("); r = s.string(); s.eat(")")
        elif s.at("vec!["): s.eat("vec!["); r = ("list", s.seq("]"))
        elif s.at("("): s.eat("("); r = ("tuple", s.seq(")"))
        else:
            m = re.compile(r"[A-Za-z_0-9:]+").match(s.t, s.i)
            w = m.group(0); s.i = m.end()
            if s.at("(") : s.eat("("); r = ("call", w, s.seq(")"))
            elif w in ("Name", "Value"):
                s.eat("{"); d = {}
                while not s.at("}"):
                    m = re.compile(r"\s*(\w+):").match(s.t, s.i); s.i = m.end()
                    d[m.group(1)] = s.expr()
                    if s.at(","): s.eat(",")
                s.eat("}"); r = ("rec", d)
            else: r = ("id", w)
        if s.at(".to_vec()"): s.eat(".to_vec()")
        return r
    def expr(s):
        a = s.atom()
        while s.at("|"):
            s.eat("|"); a = ("or", a, s.atom())
        return a

def coq(e):
    k = e[0]
    if k == "bytes": return "[" + "; ".join(map(str, e[1])) + "]"
    if k == "list": return "[" + "; ".join(map(coq, e[1])) + "]"
    if k == "tuple": return "(" + ", ".join(map(coq, e[1])) + ")"
    if k == "or": return "(N.lor %s %s)" % (coq(e[1]), coq(e[2]))
    if k == "rec":
        d = e[1]; return "(mk_hf %s %s)" % (coq(d.get("name", d.get("value"))), coq(d["flags"]))
    if k == "id":
        if e[1].startswith("HeaderFlags::"): return "HF_" + e[1][13:]
        return {"None": "None", "true": "true", "false": "false"}.get(e[1], e[1])
    if k == "call":
        f, a = e[1], e[2]
        if f == "Ok":
            t = a[0]; assert t[0] == "tuple"
            return "(POk %s %s)" % (coq(t[1][0]), coq(t[1][1]))
        if f == "Err": return "PErr" if a[0][1] == "Error" else "PInc"
        if f == "Some": return "(Some %s)" % coq(a[0])
        if f == "Header::new_with_flags": return "(mk_ph (hf_new %s %s) (hf_new %s %s))" % tuple(map(coq, a))
        if f == "Header::new": return "(mk_ph %s %s)" % tuple(map(coq, a))
    raise Exception(str(e)[:100])

FN = {"test_headers": ("Some", "h_headers {} false"), "test_headers_eoh": ("Some", "h_headers {} false"),
      "test_header_sans_colon": ("Some", "header_sans_colon {} false"), "test_header_with_colon": ("Some", "header_with_colon {} false"),
      "test_header": ("Some", "h_header {} false"), "test_token_chars": ("", "token_chars"), "test_name": ("", "h_name"),
      "test_null": ("", "h_null"), "test_eol": ("", "h_eol {}"), "test_null_or_eol": ("", "null_or_eol {}"),
      "test_folding": ("", "folding {}"), "test_folding_or_terminator": ("", "folding_or_terminator {} false"),
      "test_value_bytes": ("", "value_bytes {} false"), "test_value": ("Some", "h_value {} false")}
out = ["(** Generated by tools/gen_tests_headers.py: the test cases of src/headers.rs, run on the model. *)",
       "From Verif Require Import ModelHeaders.", ""]
n = 0
for m in re.finditer(r"#\[rstest\](.*?)\bfn (test_\w+)\((.*?)\n    }\n", src, re.S):
    cases, fn, body = m.group(1), m.group(2), m.group(3)
    if fn not in FN: continue
    wrap, call = FN[fn]
    p = P(cases); k = 0
    eoh = None
    if fn == "test_headers_eoh":
        b = body; q = P(b); q.i = b.index("let expected = ") + len("let expected = "); eoh = q.expr()
    while p.at("#[case"):
        p.i = p.t.index("(", p.i) + 1
        args = p.seq(")"); p.eat("]")
        inp = args[0]
        if fn == "test_headers_eoh":
            exp = {"SResp": eoh, "SReq": eoh if args[1] == ("id", "None") else args[1][2][0]}
        else:
            exp = {"SReq": args[1], "SResp": args[1]}
            if len(args) > 2 and args[2] != ("id", "None"): exp["SResp"] = args[2][2][0]
        for sd in ("SReq", "SResp"):
            if "{}" not in call and sd == "SResp": continue
            k += 1; n += 1
            rhs = coq(exp[sd])
            if wrap: rhs = "Some " + rhs
            out.append("Example %s_%d : %s %s = %s.\nProof. vm_compute. reflexivity. Qed." % (fn, k, call.format(sd), coq(inp), rhs))
open(os.path.join(os.path.dirname(os.path.abspath(__file__)), "../rocq/theories/TestsHeaders.v"), "w").write("\n".join(out) + "\n")
print(n)
