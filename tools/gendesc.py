#!/usr/bin/env python3
"""Write rocq/theories/Descriptor.v: what the generated files of /repo say about the messages, as constants."""
import ast, os, re
REPO = "/repo"
OUT = os.path.join(os.path.dirname(os.path.abspath(__file__)), "..", "rocq", "theories", "Descriptor.v")
pb = open(REPO + "/rpc/comfo/comfo.pb.go").read()
tw = open(REPO + "/rpc/comfo/comfo.twirp.go").read()
py = open(REPO + "/python/comfo/comfo_pb2.py").read()
pt = open(REPO + "/python/comfo/comfo_twirp.py").read()

def lines(text, a, b):
    return text.count("\n", 0, a) + 1, text.count("\n", 0, b) + 1
def q(s): return '"%s"' % s
def wrap(items, width=118, indent="  "):
    out, cur = [], indent
    for i, x in enumerate(items):
        t = x + ("; " if i + 1 < len(items) else "")
        if len(cur) + len(t) > width:
            out.append(cur.rstrip()); cur = indent
        cur += t
    out.append(cur.rstrip())
    return "\n".join(out)

o = []
o.append('''(** What the generated files say about messages and methods: constants, written by tools/gendesc.py from the text of
    rpc/comfo/comfo.pb.go, rpc/comfo/comfo.twirp.go, python/comfo/comfo_pb2.py and python/comfo/comfo_twirp.py. *)
From Coq Require Import String.
From Verif Require Import GoBase.
''')
m = re.search(r"var file_comfo_proto_rawDesc = \[\]byte\{(.*?)\n\}", pb, re.S)
raw = [int(x, 16) for x in re.findall(r"0x([0-9a-f]{2})", m.group(1))]
o.append("(** comfo.pb.go:%d-%d file_comfo_proto_rawDesc *)" % lines(pb, m.start(), m.end()))
o.append("Definition go_rawDesc : list byte := [\n" + wrap([str(x) for x in raw]) + "].\n")
m = re.search(r"AddSerializedFile\((b'.*')\)", py)
ser = list(ast.literal_eval(m.group(1)))
o.append("(** comfo_pb2.py:%d AddSerializedFile *)" % lines(py, m.start(), m.end())[0])
o.append("Definition py_serialized : list byte := [\n" + wrap([str(x) for x in ser]) + "].\n")
m = re.search(r"var twirpFileDescriptor0 = \[\]byte\{(.*?)\n\}", tw, re.S)
o.append("(** comfo.twirp.go:%d-%d twirpFileDescriptor0 *)" % lines(tw, m.start(), m.end()))
o.append("Definition twirpFileDescriptor0 : list byte := [\n" + wrap([str(int(x, 16)) for x in re.findall(r"0x([0-9a-f]{2})", m.group(1))]) + "].")
m = re.search(r"ServiceDescriptor\(\) \(\[\]byte, int\) \{\n\treturn (\w+), (\d+)\n\}", tw)
o.append("(** comfo.twirp.go:%d-%d ServiceDescriptor *)" % lines(tw, m.start(), m.end()))
o.append("Definition serviceDescriptor : list byte * nat := (%s, %s%%nat).\n" % (m.group(1), m.group(2)))
# struct tags
structs = []
for s in re.finditer(r"^type (\w+) struct \{\n(.*?)^\}", pb, re.S | re.M):
    fs = re.findall(r'^\s+(\w+)\s+(\S+)\s+`protobuf:"([^"]*)" json:"([^"]*)"`', s.group(2), re.M)
    a, b = lines(pb, s.start(), s.end())
    structs.append((s.group(1), a, b, fs))
o.append("(** comfo.pb.go:%d-%d the structs: name and type of each field, its tags protobuf and json (without omitempty). *)" % (structs[0][1], structs[-1][2]))
rows = []
for name, a, b, fs in structs:
    row = []
    for n, t, p, j in fs:
        parts = p.split(",")
        wire, num, opt = parts[:3]
        rest = dict(x.split("=") if "=" in x else (x, "") for x in parts[3:])
        assert opt == "opt" and "proto3" in rest and set(rest) <= {"name", "proto3", "enum"}, p
        assert j.endswith(",omitempty"), j
        row.append("(%s, %s, %s, %s, %s, %s)" % (q(n), q(t.lstrip("*")), q(wire), num, q(rest["name"]), q(j[:-len(",omitempty")])))
    rows.append("  (%s, [%s])" % (q(name), ";\n    ".join(row)))
o.append("Definition go_structs : list (string * list (string * string * string * Z * string * string)) := [\n" + ";\n".join(rows) + "]%string.\n")
# enum maps
m = re.search(r"CacheType_name = map\[int32\]string\{(.*?)\}", pb, re.S)
o.append("(** comfo.pb.go:%d-%d FlushCacheRequest_CacheType_name *)" % lines(pb, m.start(), m.end()))
o.append("Definition go_cache_names : list (string * Z) := [" + "; ".join("(%s, %s)" % (q(n), k) for k, n in re.findall(r'(\d+):\s+"(\w+)"', m.group(1))) + "]%string.")
m = re.search(r"CacheType_value = map\[string\]int32\{(.*?)\}", pb, re.S)
o.append("(** comfo.pb.go:%d-%d FlushCacheRequest_CacheType_value *)" % lines(pb, m.start(), m.end()))
o.append("Definition go_cache_values : list (string * Z) := [" + "; ".join("(%s, %s)" % (q(n), k) for n, k in re.findall(r'"(\w+)":\s+(\d+)', m.group(1))) + "]%string.\n")
# goTypes and depIdxs
m = re.search(r"var file_comfo_proto_goTypes = \[\]interface\{\}\{(.*?)\n\}", pb, re.S)
types = re.findall(r"\(\*?(\w+)\)\((?:nil|0)\)", m.group(1))
o.append("(** comfo.pb.go:%d-%d file_comfo_proto_goTypes *)" % lines(pb, m.start(), m.end()))
o.append("Definition go_types : list string := [\n" + wrap([q(t) for t in types]) + "]%string.")
m = re.search(r"var file_comfo_proto_depIdxs = \[\]int32\{(.*?)\n\}", pb, re.S)
deps = re.findall(r"^\s+(\d+),", m.group(1), re.M)
o.append("(** comfo.pb.go:%d-%d file_comfo_proto_depIdxs *)" % lines(pb, m.start(), m.end()))
o.append("Definition go_deps : list Z := [" + "; ".join(deps) + "].\n")
# twirp interface
m = re.search(r"type Comfo interface \{(.*?)\n\}", tw, re.S)
meths = re.findall(r"^\t(\w+)\(context\.Context, \*(\w+)\) \(\*(\w+), error\)", m.group(1), re.M)
o.append("(** comfo.twirp.go:%d-%d interface Comfo *)" % lines(tw, m.start(), m.end()))
o.append("Definition go_interface : list (string * string * string) := [\n  " + ";\n  ".join("(%s, %s, %s)" % tuple(map(q, x)) for x in meths) + "]%string.")
# twirp: request types decoded
dec = re.findall(r"func \(s \*comfoServer\) serve(\w+?)(JSON|Protobuf)\(.*?reqContent := new\((\w+)\).*?respContent \*(\w+)", tw, re.S)
o.append("(** comfo.twirp.go serve<Method>JSON, serve<Method>Protobuf: the types of reqContent and respContent. *)")
o.append("Definition go_served : list (string * string * string * string) := [\n  " + ";\n  ".join("(%s, %s, %s, %s)" % tuple(map(q, x)) for x in dec) + "]%string.")
# twirp clients: out := new(T)
cl = re.findall(r"func \(c \*comfo(JSON|Protobuf)Client\) call(\w+)\(ctx context\.Context, in \*(\w+)\) \(\*(\w+), error\) \{\n\tout := new\((\w+)\)", tw)
o.append("(** comfo.twirp.go call<Method> of the two clients: the types of in and out. *)")
assert all(x[3] == x[4] for x in cl)
o.append("Definition go_called : list (string * string * string * string) := [\n  " + ";\n  ".join("(%s, %s, %s, %s)" % (q(x[1]), q(x[0]), q(x[2]), q(x[3])) for x in cl) + "]%string.\n")
# python stub
m = re.search(r"class ComfoClient\(TwirpClient\):.*", pt, re.S)
st = re.findall(r'url=F"\{server_path_prefix\}/comfo\.api\.Comfo/(\w+)",\s*ctx=ctx,\s*request=request,\s*response_obj=_sym_db\.GetSymbol\("([\w.]+)"\)', m.group(0))
fn = re.findall(r"def (\w+)\(self, \*args, ctx, request", m.group(0))
o.append("(** comfo_twirp.py:%d-%d ComfoClient: method, last element of the URL, type of the response *)" % lines(pt, m.start(), m.end()))
assert len(fn) == len(st), (fn, st)
o.append("Definition py_stub : list (string * string * string) := [\n  " + ";\n  ".join("(%s, %s, %s)" % (q(f), q(u), q(r)) for f, (u, r) in zip(fn, st)) + "]%string.")
# python server
m = re.search(r"class ComfoServer\(TwirpServer\):.*?(?=\nclass )", pt, re.S)
ep = re.findall(r'"(\w+)": Endpoint\(\s*service_name="(\w+)",\s*name="(\w+)",\s*function=getattr\(service, "(\w+)"\),\s*input=_sym_db\.GetSymbol\("([\w.]+)"\),\s*output=_sym_db\.GetSymbol\("([\w.]+)"\),?\s*\)', m.group(0))
assert len(ep) == m.group(0).count("Endpoint("), len(ep)
o.append("(** comfo_twirp.py:%d-%d ComfoServer: key, service_name, name, function, input and output of each endpoint *)" % lines(pt, m.start(), m.end()))
o.append("Definition py_endpoints : list (string * string * string * string * string * string) := [\n  " + ";\n  ".join("(%s)" % ", ".join(map(q, e)) for e in ep) + "]%string.")
open(OUT, "w").write("\n".join(o) + "\n")
print(len(raw), len(ser), len(structs), len(meths), len(dec), len(cl), len(st))
