#!/usr/bin/env python3
"""Translate /repo/tests/messages/test_*.py and tests/serializers/test_serializer.py (read as text, with ast) into the
Examples of rocq/theories/RepoTests.v: python3 repotests.py /repo/tests > ../rocq/theories/RepoTests.v"""
import ast, sys, os, glob
root = sys.argv[1]
CODES = dict(Hello=1, Welcome=2, Abort=3, Challenge=4, Authenticate=5, Goodbye=6, Error=8, Publish=16, Published=17,
             Subscribe=32, Subscribed=33, Unsubscribe=34, Unsubscribed=35, Event=36, Call=48, Cancel=49, Result=50,
             Register=64, Registered=65, Unregister=66, Unregistered=67, Invocation=68, Interrupt=69, Yield=70)
UTIL = dict(MIN_ID=1, MAX_ID=2**53, INT="int", STRING="string", LIST="list", DICT="dict")
ROLES = ["callee", "caller", "publisher", "subscriber", "dealer", "broker"]
FIELDS = dict(
    Hello=[("realm", "s"), ("roles", "d"), ("authid", "os"), ("authmethods", "ol"), ("authextra", "od")],
    Welcome=[("session_id", "i"), ("roles", "d"), ("authid", "os"), ("authrole", "os"), ("authmethod", "os"), ("authextra", "de")],
    Abort=[("details", "d"), ("reason", "s"), ("args", "ol"), ("kwargs", "od")],
    Challenge=[("authmethod", "s"), ("extra", "de")],
    Authenticate=[("signature", "s"), ("extra", "de")],
    Goodbye=[("details", "d"), ("reason", "s")],
    Call=[("request_id", "i"), ("procedure", "s"), ("args", "ol"), ("kwargs", "od"), ("options", "de"), ("", "bin")],
    Invocation=[("request_id", "i"), ("registration_id", "i"), ("args", "ol"), ("kwargs", "od"), ("details", "de"), ("", "bin")],
    Result=[("request_id", "i"), ("args", "ol"), ("kwargs", "od"), ("options", "de"), ("", "bin")],
    Yield=[("request_id", "i"), ("args", "ol"), ("kwargs", "od"), ("options", "de"), ("", "bin")])


class Cls:
    def __init__(self, name): self.name = name


class Fields:
    def __init__(self, name, pos, kw): self.name, self.pos, self.kw = name, pos, kw


class Msg:
    def __init__(self, fields): self.fields = fields


class Marshalled:
    def __init__(self, msg): self.msg = msg


class Parsed:
    def __init__(self, cls, value): self.cls, self.value = cls, value


class Err(Exception): pass


def cstr(s): return '"' + s.replace('"', '""') + '"'


def cval(v):
    if v is None: return "VNone"
    if v is True or v is False: return "VBool " + str(v).lower()
    if isinstance(v, int): return f"VInt ({v})" if v < 0 else f"VInt {v}"
    if isinstance(v, str): return "VStr " + cstr(v)
    if isinstance(v, list): return "VList " + clist(v)
    if isinstance(v, dict): return "VDict " + cdict(v)
    raise Err(repr(v))


def clist(v): return "[" + "; ".join(cval(x) for x in v) + "]"
def cdict(v): return "[" + "; ".join(f"({cval(k)}, {cval(x)})" for k, x in v.items()) + "]"


def cmsg(m):
    f = m.fields; spec = FIELDS[f.name]; vals = dict(f.kw)
    for (n, _), x in zip(spec, f.pos): vals[n] = x
    out = []
    for n, k in spec:
        v = vals.get(n)
        if k == "bin": out.append("no_payload")
        elif k == "s": out.append(cstr(v))
        elif k == "i": out.append(f"(PyInt {v})")
        elif k == "d": out.append(cdict(v))
        elif k == "de": out.append(cdict(v or {}))
        elif k == "os": out.append("None" if v is None else f"(Some {cstr(v)})")
        elif k == "ol": out.append("None" if v is None else f"(Some {clist(v)})")
        elif k == "od": out.append("None" if v is None else f"(Some {cdict(v)})")
    return f"({f.name} (mk{f.name} {' '.join(out)}))"


def ev(e, env):
    t = type(e)
    if t is ast.Constant: return e.value
    if t is ast.List: return [ev(x, env) for x in e.elts]
    if t is ast.Tuple: return [ev(x, env) for x in e.elts]
    if t is ast.Dict: return {ev(k, env): ev(v, env) for k, v in zip(e.keys, e.values)}
    if t is ast.UnaryOp and isinstance(e.op, ast.USub): return -ev(e.operand, env)
    if t is ast.Name:
        if e.id in env: return env[e.id]
        if e.id in CODES: return Cls(e.id)
        raise Err(e.id)
    if t is ast.JoinedStr:
        return "".join(p.value if isinstance(p, ast.Constant) else str(ev(p.value, env)) for p in e.values)
    if t is ast.Subscript:
        v, i = ev(e.value, env), ev(e.slice, env)
        return ("item", v, i) if isinstance(v, Marshalled) else v[i]
    if t is ast.Attribute:
        if isinstance(e.value, ast.Name) and e.value.id == "util" and e.attr in UTIL: return UTIL[e.attr]
        if isinstance(e.value, ast.Name) and e.value.id == "messages": return Cls(e.attr)
        if e.attr == "__name__": return ev(e.value, env)
        v = ev(e.value, env)
        if isinstance(v, Cls): return {"TEXT": v.name.upper(), "TYPE": CODES[v.name]}[e.attr]
        if isinstance(v, Parsed): return ("attr", v, e.attr)
        raise Err(ast.dump(e))
    if t is ast.Call:
        s = ast.unparse(e.func)
        if s == "type": return {str: "str", int: "int", list: "list", dict: "dict", type(None): "NoneType"}[type(ev(e.args[0], env))]
        if s == "len":
            v = ev(e.args[0], env); return ("len", v) if isinstance(v, (Marshalled, tuple)) else len(v)
        if s == "dict": return {}
        if s == "str": return ev(e.args[0], env)
        if s == "ValueError": return ("errors", ev(e.args[0].value, env))
        if s == "util.AllowedRoles.get_allowed_roles": return list(ROLES)
        if s == "exceptions.InvalidDataTypeError.format":
            k = {x.arg: ev(x.value, env) for x in e.keywords}
            return f"{k['message']}: value at index {k['index']} must be of type '{k['expected_type']}' but was {k['actual_type']}"
        if s.split(".")[-1].endswith("Fields"):
            kw = {}
            for x in e.keywords: kw.update(ev(x.value, env) if x.arg is None else {x.arg: ev(x.value, env)})
            return Fields(s.split(".")[-1][:-6], [ev(x, env) for x in e.args], kw)
        if s.endswith(".marshal"): return Marshalled(ev(e.func.value, env))
        if s.endswith(".parse"): return Parsed(ev(e.func.value, env).name, ev(e.args[0], env))
        if s == "to_message": return Parsed(None, ev(e.args[0], env))
        if s.split(".")[-1] in CODES: return Msg(ev(e.args[0], env))
        raise Err(s)
    raise Err(ast.dump(e))


out, skipped = [], []


def cparse(p):
    if p.cls is None: return f"to_message ({cval(p.value)})"
    return f"parses C{p.cls} ({cval(p.value)})"


def run(body, env, facts):
    for s in body:
        if isinstance(s, ast.Assign):
            env[s.targets[0].id] = ev(s.value, env)
        elif isinstance(s, ast.For):
            for v in ev(s.iter, env): run(s.body, dict(env, **{s.target.id: v}), facts)
        elif isinstance(s, ast.With):
            exc = ast.unparse(s.items[0].context_expr.args[0])
            env["__exc"] = exc
            env["__raises"] = ev(s.body[-1].value, env)
        elif isinstance(s, ast.Assert):
            c = s.test
            if isinstance(c, ast.Call) and ast.unparse(c.func) == "isinstance":
                v = ev(c.args[0], env)
                if isinstance(v, Parsed) and v.cls: facts.append(f"succeeds ({cparse(v)})")
                elif isinstance(v, Marshalled): facts.append("True")
                elif isinstance(v, tuple): facts.append(check(v, None, ast.unparse(c.args[1])))
                continue
            l, r = c.left, c.comparators[0]
            if ast.unparse(l).startswith("str(exc_info.value)"):
                v = ev(r, env); p = env["__raises"]
                if env["__exc"] != "ValueError": raise Err("raises " + env["__exc"])
                args = v[1] if isinstance(v, tuple) else [v]
                facts.append(f"{cparse(p)} = Raise (ValueError [{'; '.join(map(cstr, args))}])")
                continue
            v = ev(l, env)
            facts.append(check(v, ev(r, env), None))
        else: raise Err(ast.dump(s))


def check(v, r, ty):
    """v: item of a marshalled list, attribute of a parsed message, or a length."""
    if v[0] == "len":
        if isinstance(v[1], Marshalled): return f"length (marshal {cmsg(v[1].msg)}) = {r}%nat"
        return f"size ({src(v[1])}) = Some {r}%nat"
    if ty: return f"kind ({src(v)}) = Some {cstr(ty)}"
    return f"same ({src(v)}) ({cval(r)}) = true"


def src(v):
    if v[0] == "item" and isinstance(v[1], Marshalled): return f"nth_error (marshal {cmsg(v[1].msg)}) {v[2]}"
    if v[0] == "item": return f"element ({src(v[1])}) {v[2]}"
    if v[0] == "attr": return f"attribute {cstr(v[2])} ({cparse(v[1])})"
    raise Err(str(v))


# subscripts of attributes: hello.authmethods[0]
_ev = ev
def ev(e, env):
    if isinstance(e, ast.Subscript):
        v = _ev(e.value, env)
        if isinstance(v, tuple): return ("item", v, _ev(e.slice, env))
    return _ev(e, env)


n = 0
files = sorted(glob.glob(root + "/messages/test_*.py")) + [root + "/serializers/test_serializer.py"]
for f in files:
    mod = ast.parse(open(f).read()); stem = os.path.basename(f)[5:-3]; base = {}
    if stem == "util": continue
    out.append(f"\n(** {os.path.relpath(f, root + '/..')} *)")
    for d in mod.body:
        if isinstance(d, ast.Assign): base[d.targets[0].id] = ev(d.value, {})
    for d in mod.body:
        if not isinstance(d, ast.FunctionDef): continue
        try:
            facts = []
            if d.decorator_list:
                names, rows = [ev(a, base) for a in d.decorator_list[0].args]
                for row in rows: run(d.body, dict(base, **dict(zip(names.split(", "), row))), facts)
            else: run(d.body, dict(base), facts)
            seen = []
            for x in facts:
                if x not in seen and x != "True": seen.append(x)
            if not seen: raise Err("no facts")
            n += 1
            out.append(f"Example {stem}_{d.name} :\n  " + " /\\\n  ".join(seen) + ".\nProof. now vm_compute. Qed.")
        except Err as x:
            skipped.append((stem, d.name, str(x)[:100]))
print(r'''(** * RepoTests: the unit tests of /repo/tests/messages (and tests/serializers/test_serializer.py), replayed on the
    model.  Generated by /verif/tools/repotests.py from the text of the tests; tests, not proofs. *)
From Coq Require Import String Ascii List ZArith Bool.
From Verif Require Import PyBase Messages Parse SpecSchema Helpers.
Import ListNotations.
Local Open Scope string_scope.
Local Open Scope Z_scope.
Local Open Scope list_scope.

Definition parses (c : mclass) (v : val) : res message := parse_object (parse_of c) (sc_name (schema_of c)) v.
Definition succeeds (r : res message) : Prop := match r with Ok _ => True | Raise _ => False end.
(** The attribute of the message a call returns. *)
Definition attribute (name : string) (r : res message) : option val :=
  match r with
  | Ok m => match find (fun '(n, _) => String.eqb n name) (attrs m) with Some (_, v) => Some v | None => None end
  | Raise _ => None
  end.
Definition element (o : option val) (i : nat) : option val := match o with Some (VList l) => nth_error l i | _ => None end.
Definition size (o : option val) : option nat :=
  match o with Some (VList l) => Some (length l) | Some (VDict d) => Some (length d) | _ => None end.
Definition kind (o : option val) : option string := option_map type_name o.
(** [==] on the values occurring in the tests: dicts compare regardless of order. *)
Fixpoint eqv (a b : val) : bool :=
  match a, b with
  | VNone, VNone => true
  | VBool x, VBool y => Bool.eqb x y
  | VInt x, VInt y => x =? y
  | VStr x, VStr y => String.eqb x y
  | VList x, VList y =>
      (fix go x y := match x, y with [], [] => true | p :: x', q :: y' => eqv p q && go x' y' | _, _ => false end) x y
  | VDict x, VDict y =>
      Nat.eqb (length x) (length y) &&
      (fix go x := match x with
                   | [] => true
                   | (VStr k, v) :: x' => match sget k y with Some w => eqv v w | None => false end && go x'
                   | _ => false
                   end) x
  | _, _ => false
  end.
Definition same (o : option val) (v : val) : bool := match o with Some w => eqv w v | None => false end.''')
print("\n".join(out))
for s in skipped: print(s, file=sys.stderr)
print(n, "tests", file=sys.stderr)
