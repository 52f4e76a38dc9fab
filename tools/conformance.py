#!/usr/bin/env python3
"""Writes rocq/theories/Conformance.v: the VALID and INVALID cases of the rules in /repo, translated
with Python's own parser to terms of the model, and the check that the rule models say what the
cases say. The cases are examples, not proofs: they are evidence that the model is the code's."""
import ast, io, re, sys, textwrap, tokenize
sys.setrecursionlimit(5000)
REPO = '/repo/src/fixit/'

def cases(path, cls):
    tree = ast.parse(open(REPO + path).read())
    out = {'VALID': [], 'INVALID': []}
    for c in tree.body:
        if isinstance(c, ast.ClassDef) and c.name == cls:
            for st in c.body:
                if isinstance(st, (ast.Assign, ast.AnnAssign)):
                    t = st.targets[0] if isinstance(st, ast.Assign) else st.target
                    if isinstance(t, ast.Name) and t.id in out:
                        for e in st.value.elts:
                            if isinstance(e, ast.Call):
                                kw = {k.arg: k.value for k in e.keywords}
                                code = e.args[0] if e.args else kw['code']
                                rep = kw.get('expected_replacement')
                                out[t.id].append((ev(code), None if rep is None else ev(rep)))
                            else:
                                out[t.id].append((ev(e), None))
    return out

def ev(e):
    s = eval(compile(ast.Expression(e), '<case>', 'eval'), {})
    return textwrap.dedent(re.sub(r'\A\n', '', s))

def cstr(s):
    if s and all(32 <= ord(c) < 127 for c in s):
        return '(u "' + s.replace('"', '""') + '")'
    return '[' + ';'.join(str(ord(c)) for c in s) + ']%N'

OTHER = {}
def other(name, es):
    n = OTHER.setdefault(name, len(OTHER))
    return f'(Other {n} {lst(es)})'

def lst(xs): return '[' + '; '.join(xs) + ']'
def b(x): return 'true' if x else 'false'

class Tr:
    def __init__(self, src):
        self.src = src
        self.lengths = {}
        # functions of the case with the name of a builtin: another name
        self.shadowed = set(re.findall(r'def (isinstance|super)\b', src))
    def seg(self, n): return ast.get_source_segment(self.src, n)
    def ex(self, n):
        r = self.ex_(n)
        s = self.seg(n)
        if s: self.lengths[r] = len(s)
        return r
    def elts(self, es):
        return lst([f'({b(isinstance(e, ast.Starred))}, {self.ex(e.value if isinstance(e, ast.Starred) else e)})' for e in es])
    def gens(self, gs):
        out = []
        for g in gs:
            it = self.ex(g.iter)
            if g.is_async: it = other('async', [it])
            out.append(f'({self.ex(g.target)}, {it}, {lst([self.ex(i) for i in g.ifs])})')
        return lst(out)
    def string(self, n):
        seg = self.seg(n)
        toks = [t.string for t in tokenize.generate_tokens(io.StringIO('(' + seg + ')').readline) if t.type == tokenize.STRING]
        parts = [self.one(t) for t in toks]
        r = parts[-1]
        for p in reversed(parts[:-1]): r = f'(Concatenated {p} {r})'
        return r
    def one(self, t):
        m = re.match(r'([A-Za-z]*)("""|\'\'\'|"|\')', t)
        prefix, quote = m.groups()
        raw = t[m.end():len(t) - len(quote)]
        if 'f' in prefix.lower():
            return f'(FString {cstr(prefix)} {cstr(quote)} {lst(self.fparts(raw))})'
        return f'(SimpleString {cstr(prefix)} {cstr(quote)} {cstr(raw)})'
    def fparts(self, raw):
        out, text, i = [], '', 0
        while i < len(raw):
            if raw[i:i+2] in ('{{', '}}'): text += raw[i:i+2]; i += 2
            elif raw[i] == '{':
                if text: out.append('inl ' + cstr(text)); text = ''
                depth, j = 1, i + 1
                while depth: depth += {'{': 1, '}': -1}.get(raw[j], 0); j += 1
                body = raw[i+1:j-1]
                m = re.match(r'^(.*?)(![rsa])?(:[^\[\]()]*)?$', body, re.S)
                e = Tr(m.group(1).strip()).ex(ast.parse(m.group(1).strip(), mode='eval').body)
                if m.group(2) or m.group(3): e = other('conversion', [e])
                out.append('inr ' + e); i = j
            else: text += raw[i]; i += 1
        if text: out.append('inl ' + cstr(text))
        return out
    def ex_(self, n):
        t = type(n)
        if t is ast.Name: return f'(Name {cstr(n.id + (".local" if n.id in self.shadowed else ""))})'
        if t is ast.Constant:
            if isinstance(n.value, (str, bytes)): return self.string(n)
            if n.value is Ellipsis: return other('Ellipsis', [])
            if n.value in (True, False, None) and str(n.value) in ('True', 'False', 'None'): return f'(Name {cstr(str(n.value))})'
            return f'(Number {cstr(self.seg(n))})'
        if t is ast.JoinedStr: return self.string(n)
        if t is ast.Attribute: return f'(Attribute {self.ex(n.value)} {cstr(n.attr)})'
        if t is ast.Subscript:
            s = n.slice
            sl = s.elts if isinstance(s, ast.Tuple) and not (self.seg(s) or '').startswith('(') else [s]
            return f'(Subscript {self.ex(n.value)} {lst([self.ex(x) for x in sl])})'
        if t is ast.Call:
            args = [(a.lineno, a.col_offset, 'OneStar' if isinstance(a, ast.Starred) else 'NoStar', None, a.value if isinstance(a, ast.Starred) else a) for a in n.args]
            args += [(k.lineno, k.col_offset, 'NoStar' if k.arg else 'TwoStars', k.arg, k.value) for k in n.keywords]
            args.sort(key=lambda a: a[:2])
            return f'(Call {self.ex(n.func)} ' + lst([f'({st}, {"Some " + cstr(k) if k else "None"}, {self.ex(v)})' for _, _, st, k, v in args]) + ')'
        if t is ast.UnaryOp and isinstance(n.op, ast.Not): return f'(Not {self.ex(n.operand)})'
        if t is ast.BoolOp:
            op = 'And' if isinstance(n.op, ast.And) else 'Or'
            r = self.ex(n.values[0])
            for v in n.values[1:]: r = f'(BoolOp {r} {op} {self.ex(v)})'
            return r
        if t is ast.BinOp and isinstance(n.op, ast.Mod): return f'(Modulo {self.ex(n.left)} {self.ex(n.right)})'
        if t is ast.Compare:
            ops = {'Is': 'Is', 'IsNot': 'IsNot', 'Eq': 'Equal', 'NotEq': 'NotEqual', 'In': 'InOp', 'NotIn': 'NotInOp', 'Lt': 'OtherCmp 0', 'LtE': 'OtherCmp 1', 'Gt': 'OtherCmp 2', 'GtE': 'OtherCmp 3'}
            return f'(Compare {self.ex(n.left)} ' + lst([f'({ops[type(o).__name__]}, {self.ex(c)})' for o, c in zip(n.ops, n.comparators)]) + ')'
        if t is ast.Tuple: return f'(Tuple {self.elts(n.elts)})'
        if t is ast.List: return f'(List {self.elts(n.elts)})'
        if t is ast.Set: return f'(Set_ {self.elts(n.elts)})'
        if t is ast.Dict and None not in n.keys: return f'(Dict {lst([f"({self.ex(k)}, {self.ex(v)})" for k, v in zip(n.keys, n.values)])})'
        if t is ast.Lambda:
            a = n.args
            simple = not (a.vararg or a.kwarg or a.kwonlyargs or a.posonlyargs or a.defaults or a.kw_defaults)
            ps = [x.arg for x in a.posonlyargs + a.args + a.kwonlyargs + [y for y in (a.vararg, a.kwarg) if y]]
            return f'(Lambda {lst([cstr(p) for p in ps])} {b(simple)} {self.ex(n.body)})'
        if t is ast.ListComp: return f'(ListComp {self.ex(n.elt)} {self.gens(n.generators)})'
        if t is ast.SetComp: return f'(SetComp {self.ex(n.elt)} {self.gens(n.generators)})'
        if t is ast.GeneratorExp: return f'(GeneratorExp {self.ex(n.elt)} {self.gens(n.generators)})'
        if t is ast.DictComp: return f'(DictComp {self.ex(n.key)} {self.ex(n.value)} {self.gens(n.generators)})'
        name = t.__name__
        if t in (ast.BinOp, ast.UnaryOp): name += ':' + type(n.op).__name__
        return other(name, [self.ex(c) for c in ast.iter_child_nodes(n) if isinstance(c, ast.expr)])
    def forest(self, node, only_if):
        out = []
        def go(n):
            for f, v in ast.iter_fields(n):
                for c in (v if isinstance(v, list) else [v]):
                    if isinstance(c, ast.expr):
                        if not only_if or (isinstance(n, ast.If) and f == 'test'): out.append(self.ex(c))
                    elif isinstance(c, ast.AST): go(c)
        go(node)
        return out

RULES = [  # file, class, model, kind
  ('rules/no_static_if_condition.py', 'NoStaticIfCondition', 'no_static_if', 'if'),
  ('rules/compare_primitives_by_equal.py', 'ComparePrimitivesByEqual', 'by_equal', ''),
  ('rules/compare_singleton_primitives_by_is.py', 'CompareSingletonPrimitivesByIs', 'by_is singletons', ''),
  ('rules/chained_instance_check.py', 'CollapseIsinstanceChecks', 'collapse same (is_name "isinstance")', ''),
  ('rules/use_assert_in.py', 'UseAssertIn', 'assert_in', ''),
  ('rules/use_assert_is_not_none.py', 'UseAssertIsNotNone', 'assert_none', ''),
  ('rules/no_assert_true_for_comparison.py', 'NoAssertTrueForComparison', 'assert_true_comparison', ''),
  ('rules/deprecated_unittest_asserts.py', 'DeprecatedUnittestAsserts', 'deprecated_assert', ''),
  ('rules/rewrite_to_literal.py', 'RewriteToLiteral', 'to_literal', ''),
  ('rules/rewrite_to_comprehension.py', 'RewriteToComprehension', 'ok to_comprehension', ''),
  ('rules/no_redundant_list_comprehension.py', 'NoRedundantListComprehension', 'list_comprehension', ''),
  ('rules/no_redundant_lambda.py', 'NoRedundantLambda', 'redundant_lambda', ''),
  ('rules/no_redundant_fstring.py', 'NoRedundantFString', 'redundant_fstring', ''),
  ('rules/use_fstring.py', 'UseFstring', 'ok (use_fstring (wide LEN) (fun _ _ _ _ => true))', ''),
]

PRELUDE = '''(** * Conformance: the cases of the rules themselves

    Written by tools/conformance.py: every VALID and INVALID case of a rule in /repo, translated by
    Python's parser to a term of the model. A VALID case has no expression that the model reports, an
    INVALID one has, and where the case has an expected replacement, replacing the outermost reported
    expressions gives it. These are tests of the models, not proofs: evidence that they are the code's. *)
From Coq Require Import String List NArith ZArith Bool Arith.
From Verif Require Import Base PyStr Py Rules.
Import ListNotations.
Open Scope N_scope.

(** An expression written down, to compare expressions *)
Fixpoint show (e : expr) : str :=
  let many := fun l : list expr => 40 :: flat_map (fun x => show x ++ [44]) l ++ [41] in
  let strs := fun l : list str => flat_map (fun s => 39 :: s ++ [39]) l in
  let elems := fun l : list (bool * expr) => 40 :: flat_map (fun x : bool * expr => (if fst x then 42 else 43) :: show (snd x)) l ++ [41] in
  let cls := flat_map (fun c : clause => match c with (t, i, ifs) => 70 :: show t ++ show i ++ 40 :: flat_map show ifs ++ [41] end) in
  match e with
  | Name s => 1 :: s ++ [0]
  | Number s => 2 :: s ++ [0]
  | SimpleString p q r => 3 :: p ++ q ++ r ++ q ++ [0]
  | Concatenated l r => 4 :: show l ++ show r
  | FString p q ps => 5 :: p ++ q ++ flat_map (fun x => match x with inl t => 6 :: t ++ [0] | inr e => 7 :: show e end) ps ++ [0]
  | Attribute e a => 8 :: show e ++ a ++ [0]
  | Subscript e sl => 9 :: show e ++ many sl
  | Call f args => 10 :: show f ++ flat_map (fun a : arg => match a with (st, k, e) =>
        (match st with NoStar => 11 | OneStar => 12 | TwoStars => 13 end) :: strs (match k with Some s => [s] | None => [] end) ++ show e end) args ++ [0]
  | Not e => 14 :: show e
  | BoolOp l op r => 15 :: show l ++ (match op with And => 16 | Or => 17 end) :: show r
  | Modulo l r => 18 :: show l ++ show r
  | Compare l rest => 19 :: show l ++ flat_map (fun x : cmpop * expr =>
        (match fst x with Is => 20 | IsNot => 21 | Equal => 22 | NotEqual => 23 | InOp => 24 | NotInOp => 25 | OtherCmp n => 26 + n end) :: show (snd x)) rest ++ [0]
  | Tuple es => 40 :: elems es
  | List es => 41 :: elems es
  | Set_ es => 42 :: elems es
  | Dict es => 43 :: flat_map (fun kv : expr * expr => match kv with (k, v) => show k ++ show v end) es ++ [0]
  | Lambda ps s bd => 44 :: strs ps ++ (if s then 1 else 2) :: show bd
  | ListComp e cs => 45 :: show e ++ cls cs ++ [0]
  | SetComp e cs => 46 :: show e ++ cls cs ++ [0]
  | GeneratorExp e cs => 47 :: show e ++ cls cs ++ [0]
  | DictComp k v cs => 48 :: show k ++ show v ++ cls cs ++ [0]
  | Other n es => 49 :: n :: many es
  end.
Definition same (a b : expr) : bool := str_eqb (show a) (show b).

(** Replacing outermost reported expressions, and counting the reports they are *)
Section Rewrite.
  Context (r : expr -> report).
  Fixpoint rw (e : expr) : expr :=
    match r e with
    | Some (Some e') => e'
    | _ =>
        let cls := map (fun c : clause => match c with (t, i, ifs) => (rw t, rw i, map rw ifs) end) in
        let elems := map (fun x : bool * expr => (fst x, rw (snd x))) in
        match e with
        | Name _ | Number _ | SimpleString _ _ _ => e
        | Concatenated a c => Concatenated (rw a) (rw c)
        | FString p q ps => FString p q (map (fun x => match x with inl t => inl t | inr e => inr (rw e) end) ps)
        | Attribute e a => Attribute (rw e) a
        | Subscript e sl => Subscript (rw e) (map rw sl)
        | Call f args => Call (rw f) (map (fun a : arg => match a with (st, k, e) => (st, k, rw e) end) args)
        | Not e => Not (rw e)
        | BoolOp a op c => BoolOp (rw a) op (rw c)
        | Modulo a c => Modulo (rw a) (rw c)
        | Compare l rest => Compare (rw l) (map (fun x : cmpop * expr => (fst x, rw (snd x))) rest)
        | Tuple es => Tuple (elems es)
        | List es => List (elems es)
        | Set_ es => Set_ (elems es)
        | Dict es => Dict (map (fun kv : expr * expr => match kv with (k, v) => (rw k, rw v) end) es)
        | Lambda ps s bd => Lambda ps s (rw bd)
        | ListComp e cs => ListComp (rw e) (cls cs)
        | SetComp e cs => SetComp (rw e) (cls cs)
        | GeneratorExp e cs => GeneratorExp (rw e) (cls cs)
        | DictComp k v cs => DictComp (rw k) (rw v) (cls cs)
        | Other n es => Other n (map rw es)
        end
    end.
  Fixpoint reports (e : expr) : bool :=
    match r e with
    | Some _ => true
    | None =>
        let cls := existsb (fun c : clause => match c with (t, i, ifs) => reports t || reports i || existsb reports ifs end) in
        let elems := existsb (fun x : bool * expr => reports (snd x)) in
        match e with
        | Name _ | Number _ | SimpleString _ _ _ => false
        | Concatenated a c => reports a || reports c
        | FString p q ps => existsb (fun x => match x with inl t => false | inr e => reports e end) ps
        | Attribute e a => reports e
        | Subscript e sl => reports e || existsb reports sl
        | Call f args => reports f || existsb (fun a : arg => match a with (st, k, e) => reports e end) args
        | Not e => reports e
        | BoolOp a op c => reports a || reports c
        | Modulo a c => reports a || reports c
        | Compare l rest => reports l || existsb (fun x : cmpop * expr => reports (snd x)) rest
        | Tuple es | List es | Set_ es => elems es
        | Dict es => existsb (fun kv : expr * expr => match kv with (k, v) => reports k || reports v end) es
        | Lambda ps s bd => reports bd
        | ListComp e cs | SetComp e cs | GeneratorExp e cs => reports e || cls cs
        | DictComp k v cs => reports k || reports v || cls cs
        | Other n es => existsb reports es
        end
    end.
End Rewrite.

Definition ok (r : expr -> res report) (e : expr) : report := match r e with Ok x => x | Err _ => None end.
Definition singletons (e : expr) : bool := is_name "True" e || is_name "False" e || is_name "None" e.
Definition wide (t : list (str * nat)) (e : expr) : nat := match assoc (show e) t with Some n => n | None => 0%nat end.

Definition valid (r : expr -> report) (es : list expr) : bool := negb (existsb (reports r) es).
Definition invalid (r : expr -> report) (c : list expr * option (list expr)) : bool :=
  existsb (reports r) (fst c) &&
  match snd c with
  | None => true
  | Some after => str_eqb (flat_map show (map (rw r) (fst c))) (flat_map show after)
  end.
(** the cases that do not come out right, by number *)
Definition wrong {A} (f : A -> bool) (l : list A) : list nat :=
  map fst (filter (fun x => negb (f (snd x))) (combine (seq 0 (List.length l)) l)).
'''

# ---- rules about statements -------------------------------------------------------------------
import builtins

class Names:
    '''qualified names, as far as the cases need them: imports and definitions anywhere in the case'''
    def __init__(self, tree):
        self.imports, self.defined = {}, set()
        for n in ast.walk(tree):
            if isinstance(n, ast.Import):
                for a in n.names:
                    if a.asname: self.imports[a.asname] = a.name
                    else: self.imports[a.name.split('.')[0]] = a.name.split('.')[0]
            elif isinstance(n, ast.ImportFrom):
                for a in n.names: self.imports[a.asname or a.name] = '.' * n.level + (n.module or '') + '.' + a.name
            elif isinstance(n, (ast.FunctionDef, ast.AsyncFunctionDef, ast.ClassDef)): self.defined.add(n.name)
            elif isinstance(n, ast.Name) and isinstance(n.ctx, ast.Store): self.defined.add(n.id)
    def chain(self, n):
        if isinstance(n, ast.Name): return [n.id]
        if isinstance(n, ast.Attribute):
            c = self.chain(n.value); return c and c + [n.attr]
        if isinstance(n, ast.Call): return self.chain(n.func)
        if isinstance(n, ast.Subscript): return self.chain(n.value)
    def qual(self, n):
        c = self.chain(n)
        if not c: return []
        if c[0] in self.imports: return ['.'.join([self.imports[c[0]]] + c[1:])]
        if c[0] in self.defined: return ['.'.join(c)]
        if hasattr(builtins, c[0]): return ['builtins.' + '.'.join(c)]
        return []
    def known(self): return sorted(set(self.imports) | self.defined)

class Tree:
    '''a Trees.node'''
    def __init__(self, src):
        self.tree, self.tr, self.n = ast.parse(src), Tr(src), 0
        self.names = Names(self.tree)
    def node(self, kind, cs):
        self.n += 1
        return f'(Node {self.n} {kind} {lst(cs)})'
    def kids(self, *xs):
        out = []
        for x in xs:
            for y in (x if isinstance(x, list) else [x]):
                if isinstance(y, ast.AST) and not isinstance(y, (ast.expr_context, ast.operator, ast.cmpop, ast.boolop, ast.unaryop)): out.append(self.go(y))
        return out
    def annotation(self, a): return [] if a is None else [self.node('AnnotationNode', [self.go(a)])]
    def fn(self, n):
        a = n.args; ps = a.posonlyargs + a.args + ([a.vararg] if a.vararg else []) + a.kwonlyargs + ([a.kwarg] if a.kwarg else [])
        return ps, a.defaults + a.kw_defaults
    def qs(self, n): return lst([cstr(q) for q in self.names.qual(n)])
    def go(self, n):
        if isinstance(n, (ast.FunctionDef, ast.AsyncFunctionDef)):
            ps, ds = self.fn(n)
            cs = self.kids(n.decorator_list)
            for p in ps: cs += self.annotation(p.annotation)
            cs += self.kids(ds) + self.annotation(n.returns) + self.kids(n.body)
            return self.node(f'(FunctionNode {b(isinstance(n, ast.AsyncFunctionDef))} {lst([cstr(p.arg) for p in ps])})', cs)
        if isinstance(n, ast.ClassDef):
            return self.node(f'(ClassNode {cstr(n.name)})', self.kids(n.decorator_list, n.bases, [k.value for k in n.keywords], n.body))
        if isinstance(n, ast.AnnAssign):
            return self.node('(OtherNode 0)', self.kids(n.target) + self.annotation(n.annotation) + self.kids(n.value))
        if isinstance(n, ast.Call):
            return self.node(f'(CallNode {self.tr.ex(n)} {self.qs(n)})', self.kids(n.func, n.args, [k.value for k in n.keywords]))
        if isinstance(n, ast.Name):
            return self.node(f'(NameNode {cstr(n.id)} {self.qs(n)} (among {lst([cstr(x) for x in self.names.known()])}))', [])
        if isinstance(n, ast.ImportFrom):
            m = None
            for x in (n.module or '').split('.') if n.module else []: m = f'(Attribute {m} {cstr(x)})' if m else f'(Name {cstr(x)})'
            star = n.names[0].name == '*'
            return self.node(f'(ImportFromNode {"(Some " + m + ")" if m else "None"} {"None" if star else "(Some " + lst([f"(Name {cstr(a.name)})" for a in n.names]) + ")"})', [])
        if isinstance(n, ast.Subscript):
            return self.node(f'(SubscriptNode {self.qs(n)})', self.kids(n.value, n.slice))
        if isinstance(n, ast.Constant) and isinstance(n.value, (str, bytes)):
            seg = self.tr.seg(n)
            toks = [t.string for t in tokenize.generate_tokens(io.StringIO('(' + seg + ')').readline) if t.type == tokenize.STRING]
            out = []
            for t in toks:
                try:
                    v = ast.literal_eval(t); p = '(Some ' + Tr(v).ex(ast.parse(v, mode='eval').body) + ')'
                except (SyntaxError, TypeError, ValueError): p = 'None'
                out.append(self.node(f'(StringNode {p})', []))
            return out[0] if len(out) == 1 else self.node('(OtherNode 1)', out)
        return self.node('(OtherNode 2)', self.kids(*[v for _, v in ast.iter_fields(n)]))

def counted(code, what):
    '''the sequence of things a fix changes'''
    t = ast.parse(code)
    if what == 'names': return [n.id for n in ast.walk(t) if isinstance(n, ast.Name)]
    if what == 'supers': return [len(n.args) for n in ast.walk(t) if isinstance(n, ast.Call)]
    if what == 'strings': return [n.value for n in ast.walk(t) if isinstance(n, ast.Constant) and isinstance(n.value, str)]

def changes(before, after, what):
    x, y = counted(before, what), counted(after, what)
    if what == 'strings': return len(x) - len(y)
    if what == 'supers': return sum(a != b for a, b in zip(x, y))
    return sum(a != b for a, b in zip(x, y))

TREES = [
  ('rules/use_async_sleep_in_async_def.py', 'UseAsyncSleepInAsyncDef', 'async_sleep', 'false', ''),
  ('rules/no_redundant_arguments_super.py', 'NoRedundantArgumentsSuper', 'redundant_super', '[]', 'supers'),
  ('rules/use_types_from_typing.py', 'UseTypesFromTyping', 'typing_types', '0%nat', 'names'),
  ('rules/no_string_type_annotation.py', 'NoStringTypeAnnotation', 'string_types', '(Strings [] [] false)', 'strings'),
]

class Stmts:
    def __init__(self, src):
        self.tree, self.tr = ast.parse(src), Tr(src)
        self.names, self.ids = Names(self.tree), {}
    def args(self, es, kws):
        bases = [('OneStar' if isinstance(a, ast.Starred) else 'NoStar', None, a.value if isinstance(a, ast.Starred) else a) for a in es]
        kw = [('NoStar' if k.arg else 'TwoStars', k.arg, k.value) for k in kws]
        f = lambda l: lst([f'({s}, {"Some " + cstr(k) if k else "None"}, {self.tr.ex(v)})' for s, k, v in l])
        return f(bases), f(kw)
    def small(self, s):
        if isinstance(s, ast.Assign): return f'(Assign {lst([self.tr.ex(t) for t in s.targets])} {self.tr.ex(s.value)})'
        if isinstance(s, ast.Expr): return f'(ExprStmt {self.tr.ex(s.value)})'
        return f'(OtherSmall {self.id(ast.dump(s))})'
    def id(self, key): return STMT.setdefault(key, len(STMT))
    def body(self, c):
        lines = []
        for s in c.body:
            one = f'Simple [{self.small(s)}]' if not isinstance(s, (ast.FunctionDef, ast.AsyncFunctionDef, ast.ClassDef, ast.If, ast.For, ast.With, ast.Try, ast.While)) else f'Compound {self.id(type(s).__name__ + getattr(s, "name", ast.dump(s)))}'
            lines.append(f'(Line {self.id(ast.dump(s))} ({one}))')
        return f'(Block {lst(lines)})'
    def cls(self, c):
        bs, ks = self.args(c.bases, c.keywords)
        return f'(ClassDef {cstr(c.name)} {bs} {ks} {lst([self.tr.ex(d) for d in c.decorator_list])} {self.body(c)})'
    def classes(self): return [n for n in ast.walk(self.tree) if isinstance(n, ast.ClassDef)]
    def cands(self, want):
        '''the expressions that are, by import, one of these'''
        out = []
        for c in self.classes():
            for e in c.bases + c.decorator_list:
                if any(q in want for q in self.names.qual(e)): out.append(self.tr.ex(e))
        return lst(out)
    def imp(self, n):
        names = 'None' if n.names[0].name == '*' else 'Some ' + lst([f'Alias {cstr(a.name)} {"(Some " + cstr(a.asname) + ")" if a.asname else "None"}' for a in n.names])
        mod = 'Some ' + lst([cstr(x) for x in n.module.split('.')]) if n.module else 'None'
        return f'(From {n.level} ({mod}) ({names}))'
    def inside(self, s, exc=False):
        out = []
        for c in ast.iter_child_nodes(s):
            e = exc or isinstance(c, ast.ExceptHandler)
            if isinstance(c, ast.ImportFrom): out.append(f'({b(e)}, {self.imp(c)})')
            else: out += self.inside(c, e)
        return out
    def statements(self):
        return lst([f'ImportLine {self.imp(s)}' if isinstance(s, ast.ImportFrom) else f'OtherStatement {self.id(ast.dump(s))} {lst(self.inside(s))}' for s in self.tree.body])
    def aliases(self):
        return lst([f'ImportAlias {lst([cstr(x) for x in a.name.split(".")])} {"(Some " + cstr(a.asname) + ")" if a.asname else "None"}' for n in ast.walk(self.tree) if isinstance(n, ast.Import) for a in n.names])
STMT = {}

class Code:
    '''a Scopes.code'''
    def group(self, xs): return '(Group ' + lst([self.go(x) for x in xs if isinstance(x, ast.AST)]) + ')'
    def args(self, a): return [x.arg for x in a.posonlyargs + a.args + a.kwonlyargs] + [x.arg for x in (a.vararg, a.kwarg) if x]
    def go(self, n):
        if isinstance(n, ast.Name): return f'({"Ref" if isinstance(n.ctx, ast.Load) else "Bind"} {cstr(n.id)})'
        if isinstance(n, (ast.FunctionDef, ast.AsyncFunctionDef)):
            nl = [x for s in n.body if isinstance(s, ast.Nonlocal) for x in s.names]
            return f'(Group [BindOther {cstr(n.name)}; Nested {lst([cstr(x) for x in self.args(n.args)])} {lst([cstr(x) for x in nl])} {self.group(n.body)}])'
        if isinstance(n, ast.Lambda): return f'(Nested {lst([cstr(x) for x in self.args(n.args)])} [] {self.go(n.body)})'
        if isinstance(n, (ast.ListComp, ast.SetComp, ast.GeneratorExp, ast.DictComp)):   # a scope of its own
            first = n.generators[0].iter
            rest = [x for x in ast.iter_child_nodes(n)]
            inner = '(Group ' + lst([self.go(x) for x in ([n.elt] if hasattr(n, 'elt') else [n.key, n.value])] +
                [self.go(y) for i, g in enumerate(n.generators) for y in ([g.target] + ([g.iter] if i else []) + g.ifs)]) + ')'
            return f'(Group [{self.go(first)}; Nested [] [] {inner}])'
        if isinstance(n, (ast.Import, ast.ImportFrom)): return '(Group ' + lst([f'BindOther {cstr((a.asname or a.name).split(".")[0])}' for a in n.names]) + ')'
        if isinstance(n, ast.ClassDef): return f'(BindOther {cstr(n.name)})'
        return self.group(list(ast.iter_child_nodes(n)))
    def function(self, n):
        a = n.args
        cm = any(isinstance(d, ast.Name) and d.id == 'classmethod' for d in n.decorator_list)
        rest = [x.arg for x in a.kwonlyargs] + [x.arg for x in (a.vararg, a.kwarg) if x]
        f = lambda l: lst([cstr(x) for x in l])
        return f'(Function {b(cm)} {f([x.arg for x in a.posonlyargs])} {f([x.arg for x in a.args])} {f(rest)} {self.group(n.body)})'
    def functions(self, tree):
        out = []
        def bound(body):
            r = []
            for s in body:
                if isinstance(s, (ast.FunctionDef, ast.AsyncFunctionDef, ast.ClassDef)): r.append(s.name)
                else: r += [x.id for x in ast.walk(s) if isinstance(x, ast.Name) and isinstance(x.ctx, ast.Store)]
            return r
        def go(n, outer):
            for c in ast.iter_child_nodes(n):
                if isinstance(c, (ast.FunctionDef, ast.AsyncFunctionDef)):
                    out.append((lst([lst([cstr(x) for x in o]) for o in outer]), self.function(c)))
                elif isinstance(c, ast.ClassDef): go(c, [bound(c.body)] + outer)
                else: go(c, outer)
        go(tree, [bound(tree.body)])
        return out

PRELUDE2 = '''(** * Conformance2: the cases of the rules about statements

    Written by tools/conformance.py, see Conformance.v. For the rules that keep state while they visit
    the tree: a VALID case gives no report, an INVALID one does, with as many fixes as the expected
    replacement has changes, and none for the expected replacement. The others: the expected
    replacement is what the model says. *)
From Coq Require Import String List NArith ZArith Bool Arith.
From Verif Require Import Base PyStr Py Rules Classes Trees Imports Upgrade Scopes Conformance.
Import ListNotations.
Open Scope N_scope.

Definition among (l : list str) (x : str) : bool := existsb (str_eqb x) l.
Definition notes {S} (v : visitor S) (s : S) (t : node) : list note := snd (traverse v t s).
Definition quiet {S} (v : visitor S) (s : S) (t : node) : bool := match notes v s t with [] => true | _ => false end.
Definition fixes (l : list note) : nat := List.length (filter (fun n => match n_repl n with Some _ => true | None => false end) l).
Definition tree_invalid {S} (v : visitor S) (s : S) (c : node * option (nat * node)) : bool :=
  negb (quiet v s (fst c)) &&
  match snd c with
  | None => true
  | Some (n, after) => Nat.eqb (fixes (notes v s (fst c))) n && quiet v s after
  end.

Definition show_arg (a : arg) : str := show (Call (Name []) [a]).
Definition show_small (s : small) : str :=
  match s with Assign ts e => 1 :: flat_map show ts ++ show e | ExprStmt e => 2 :: show e | OtherSmall n => [3; n] end.
Definition show_line (l : line) : str := match ln_content l with Simple b => 1 :: flat_map show_small b | Compound n => [2; n] end.
Definition show_class (c : class_def) : str :=
  d_name c ++ 0 :: flat_map show_arg (d_bases c) ++ 0 :: flat_map show_arg (d_keywords c) ++ 0 :: flat_map show (d_decorators c) ++
  0 :: match d_body c with Block ls => 1 :: flat_map show_line ls | OneLine ss => 2 :: flat_map show_small ss end.
Definition class_wrong (f : class_def -> option class_def) (c : list class_def * option (list class_def)) : bool :=
  existsb (fun x => match f x with Some _ => true | None => false end) (fst c) &&
  match snd c with
  | None => true
  | Some after => list_eqb str_eqb (map (fun x => show_class (match f x with Some y => y | None => x end)) (fst c)) (map show_class after)
  end.
Definition class_valid (f : class_def -> option class_def) (cs : list class_def) : bool :=
  negb (existsb (fun x => match f x with Some _ => true | None => false end) cs).
Definition ok_class (f : class_def -> res (option class_def)) (c : class_def) : option class_def := match f c with Ok r => r | Err _ => None end.
Definition of_string (e : expr) : option str := match e with SimpleString _ _ raw => Some raw | _ => None end.

Fixpoint show_code (c : code) : str :=
  match c with
  | Ref x => 1 :: x ++ [0]
  | Bind x => 2 :: x ++ [0]
  | BindOther x => 3 :: x ++ [0]
  | Group cs => 4 :: flat_map show_code cs ++ [5]
  | Nested ps nl b => 6 :: flat_map (fun x => x ++ [7]) ps ++ 8 :: flat_map (fun x => x ++ [7]) nl ++ 9 :: show_code b
  end.
Definition show_function (f : function) : str :=
  flat_map (fun x => x ++ [7]) (fn_posonly f) ++ 8 :: flat_map (fun x => x ++ [7]) (fn_params f) ++ 8 :: flat_map (fun x => x ++ [7]) (fn_rest f) ++ 8 :: show_code (fn_body f).
Definition cls_valid (l : list (list (list str) * function)) : bool :=
  negb (existsb (fun x => match use_cls (fst x) (snd x) with Some _ => true | None => false end) l).
Definition cls_invalid (c : list (list (list str) * function) * option (list function)) : bool :=
  negb (cls_valid (fst c)) &&
  match snd c with
  | None => forallb (fun x => match use_cls (fst x) (snd x) with Some (Some _) => false | _ => true end) (fst c)
  | Some after => list_eqb str_eqb (map (fun x => show_function (match use_cls (fst x) (snd x) with Some (Some g) => g | _ => snd x end)) (fst c)) (map show_function after)
  end.

(** the union rule: annotations that are subscripts, whether Optional is known *)
Definition show_element (e : element) : str := match e with Index e => show e | Slice n => [0; n] end.
Definition union_one (c : bool * expr * list element) : option (option (expr * list element)) :=
  match c with (sc, v, es) => union_to_optional sc v es end.
Definition union_valid (l : list (bool * expr * list element)) : bool := negb (existsb (fun c => match union_one c with Some _ => true | None => false end) l).
Definition union_invalid (c : list (bool * expr * list element) * option (list (bool * expr * list element))) : bool :=
  negb (union_valid (fst c)) &&
  match snd c with
  | None => forallb (fun x => match union_one x with Some (Some _) => false | _ => true end) (fst c)
  | Some after =>
      list_eqb str_eqb (map (fun x => match union_one x with Some (Some (v, es)) => show v ++ flat_map show_element es | _ => show (snd (fst x)) ++ flat_map show_element (snd x) end) (fst c))
                       (map (fun x => show (snd (fst x)) ++ flat_map show_element (snd x)) after)
  end.

(** imports *)
Definition show_import (i : import_from) : str :=
  N.of_nat (f_dots i) :: match f_module i with Some l => flat_map (fun x => x ++ [46]) l | None => [0] end ++
  match f_names i with None => [42] | Some l => flat_map (fun a => al_name a ++ 0 :: match al_as a with Some y => 1 :: y | None => [] end) l end.
Definition show_statement (s : statement) : str := match s with ImportLine i => 1 :: show_import i | OtherStatement n l => 2 :: n :: flat_map (fun x => show_import (snd x)) l end.
Definition show_alias (a : import_alias) : str := flat_map (fun x => x ++ [46]) (ia_module a) ++ match ia_as a with Some y => 1 :: y | None => [] end.
Record abc_case := AbcCase { ac_body : list statement; ac_aliases : list import_alias; ac_classes : list class_def }.
Definition abc_body (c : abc_case) : list statement :=
  match abc_imports (ac_body c) with
  | (_, Some body) => body
  | (rs, None) => map (fun s => match s with
                                | ImportLine i => match find (fun r => str_eqb (show_import (fst r)) (show_import i)) rs with Some r => ImportLine (snd r) | None => s end
                                | _ => s
                                end) (ac_body c)
  end.
Definition abc_quiet (c : abc_case) : bool :=
  match abc_imports (ac_body c) with ([], None) => true | _ => false end &&
  forallb (fun a => match abc_alias a with None => true | _ => false end) (ac_aliases c) &&
  forallb (fun k => match abc_bases k with [] => true | _ => false end) (ac_classes c).
Definition abc_imported (s : statement) : bool := match s with ImportLine _ => true | _ => false end.
Definition abc_fixed (c : abc_case * option abc_case) : bool :=
  negb (abc_quiet (fst c)) &&
  match snd c with
  | None => true
  | Some after =>
      list_eqb str_eqb (map show_statement (filter abc_imported (abc_body (fst c)))) (map show_statement (filter abc_imported (ac_body after))) &&
      list_eqb str_eqb (map (fun a => show_alias (match abc_alias a with Some b => b | None => a end)) (ac_aliases (fst c))) (map show_alias (ac_aliases after)) &&
      list_eqb str_eqb (map (fun k => show_class (match abc_bases k with x :: _ => x | [] => k end)) (ac_classes (fst c))) (map show_class (ac_classes after))
  end.

(** deprecated imports: the imports and the names with their qualified names *)
Definition dep_valid (c : list import_from * list (list str * str)) : bool :=
  forallb (fun i => match deprecated_imports i with [] => true | _ => false end) (fst c) &&
  forallb (fun n => match deprecated_name (fst n) (snd n) with None => true | _ => false end) (snd c).
Definition dep_import (i : import_from) : import_from :=
  From (f_dots i) (f_module i) (match f_module i, f_names i with
                                | Some [md], Some l => Some (map (fun a => match deprecated_alias md a with Some b => b | None => a end) l)
                                | _, l => l
                                end).
Definition dep_invalid (c : (list import_from * list (list str * str)) * (list import_from * list (list str * str))) : bool :=
  negb (dep_valid (fst c)) &&
  list_eqb str_eqb (map (fun i => show_import (dep_import i)) (fst (fst c))) (map show_import (fst (snd c))) &&
  list_eqb str_eqb (map (fun n => match deprecated_name (fst n) (snd n) with Some y => y | None => snd n end) (snd (fst c))) (map snd (snd (snd c))).

(** rule classes: the name, the sets of the bases *)
Definition suffix_reports (c : list (str * list (option (list str)))) : bool :=
  existsb (fun k => match remove_suffix (fst k) (snd k) with Ok ([], _) => false | _ => true end) c.

(** test case keywords: the arguments of calls of the test cases *)
Definition code_range_call (line col : expr) : expr :=
  let pos := fun args => Call (Name (u "CodePosition")) (map plain_arg args) in
  Call (Name (u "CodeRange")) [(NoStar, Some (u "start"), pos [line; col]); (NoStar, Some (u "end"), pos [Other 0 [Number (u "1"); line]; Number (u "0")])].
Definition keywords_valid (cs : list (list arg)) : bool := forallb (fun a => match convert_linecol code_range_call a with None => true | _ => false end) cs.
Definition keywords_invalid (c : list (list arg) * list (list arg)) : bool :=
  negb (keywords_valid (fst c)) &&
  list_eqb str_eqb (map (fun a => flat_map show_arg (match convert_linecol code_range_call a with Some b => b | None => a end)) (fst c)) (map (flat_map show_arg) (snd c)).
'''

def emit(out, path, cls, ty_v, ty_i, vs, ivs, fv, fi):
    out.append(f'(** /repo/src/fixit/{path} {cls} *)\nDefinition {cls}_VALID : list ({ty_v}) :=\n  [' + ';\n   '.join(vs) + '].\n')
    out.append(f'Definition {cls}_INVALID : list ({ty_i}) :=\n  [' + ';\n   '.join(ivs) + '].\n')
    out.append(f'Example {cls}_conforms : wrong ({fv}) {cls}_VALID = [] /\\ wrong ({fi}) {cls}_INVALID = [].\nProof. vm_compute. split; reflexivity. Qed.\n')
    return len(vs) + len(ivs)

def main2():
    out, total = [PRELUDE2], 0
    OTHER.clear(); other('BinOp:Add', [])
    opt = lambda f, rep: 'None' if rep is None else 'Some ' + f(rep)
    for path, cls, model, init, what in TREES:
        cs = cases(path, cls)
        t = lambda src: (lambda T: T.go(T.tree))(Tree(src))
        vs = [t(c) for c, _ in cs['VALID']]
        ivs = [f'({t(c)},\n    {opt(lambda r: f"({changes(c, r, what)}%nat, {t(r)})", r)})' for c, r in cs['INVALID']]
        total += emit(out, path, cls, 'node', 'node * option (nat * node)', vs, ivs, f'quiet {model} {init}', f'tree_invalid {model} {init}')
    # classes
    def classes(path, cls, f, want=None):
        nonlocal total
        cs = cases(path, cls)
        g = lambda src: (lambda S: lst([S.cls(c) for c in S.classes()]))(Stmts(src))
        vs = [g(c) for c, _ in cs['VALID']]; ivs = [f'({g(c)},\n    {opt(g, r)})' for c, r in cs['INVALID']]
        m = f
        if want:
            seen = []
            for c, r in cs['VALID'] + cs['INVALID']:
                S = Stmts(c); seen.append((S.cands(want)))
            # the oracle differs from case to case: one pair per case
            nv = len(vs)
            vs = [f'({o}, {v})' for o, v in zip(seen[:nv], vs)]
            ivs = [f'({o}, {i})' for o, i in zip(seen[nv:], ivs)]
            total += emit(out, path, cls, 'list expr * list class_def', 'list expr * (list class_def * option (list class_def))', vs, ivs,
                          f'fun c => class_valid ({f} (fun e => existsb (same e) (fst c))) (snd c)', f'fun c => class_wrong ({f} (fun e => existsb (same e) (fst c))) (snd c)')
        else:
            total += emit(out, path, cls, 'list class_def', 'list class_def * option (list class_def)', vs, ivs, f'class_valid ({f})', f'class_wrong ({f})')
    classes('rules/no_inherit_from_object.py', 'NoInheritFromObject', 'no_object')
    classes('rules/no_namedtuple.py', 'NoNamedTuple', 'no_named_tuple', ['typing.NamedTuple'])
    out.append('''Definition frozen (d : expr -> bool) (c : class_def) : option class_def :=
  if existsb (fun x => match frozen_decorator d x with Some _ => true | None => false end) (d_decorators c) then
    Some (ClassDef (d_name c) (d_bases c) (d_keywords c) (map (fun x => match frozen_decorator d x with Some y => y | None => x end) (d_decorators c)) (d_body c))
  else None.
''')
    classes('rules/extra/explicit_frozen_dataclass.py', 'ExplicitFrozenDataclass', 'frozen', ['dataclasses.dataclass'])
    classes('rules/sorted_attributes_rule.py', 'SortedAttributes', 'ok_class (sorted_attributes of_string)')
    # classmethods
    path, cls = 'rules/cls_in_classmethod.py', 'UseClsInClassmethod'
    cs = cases(path, cls)
    fs = lambda src: lst([f'({o}, {f})' for o, f in Code().functions(ast.parse(src))])
    gs = lambda src: lst([f for _, f in Code().functions(ast.parse(src))])
    total += emit(out, path, cls, 'list (list (list str) * function)', 'list (list (list str) * function) * option (list function)',
                  [fs(c) for c, _ in cs['VALID']], [f'({fs(c)},\n    {opt(gs, r)})' for c, r in cs['INVALID']], 'cls_valid', 'cls_invalid')
    # except
    path, cls = 'rules/avoid_or_in_except.py', 'AvoidOrInExcept'
    cs = cases(path, cls)
    def tries(src):
        tr = Tr(src)
        return lst([lst([f'Some {tr.ex(h.type)}' if h.type else 'None' for h in n.handlers]) for n in ast.walk(ast.parse(src)) if isinstance(n, ast.Try)])
    total += emit(out, path, cls, 'list (list (option expr))', 'list (list (option expr))', [tries(c) for c, _ in cs['VALID']], [tries(c) for c, _ in cs['INVALID']],
                  'fun c => negb (existsb or_in_except c)', 'existsb or_in_except')
    # comments
    path, cls = 'rules/extra/use_lint_fixme_comment.py', 'UseLintFixmeComment'
    cs = cases(path, cls)
    comments = lambda src: lst([cstr(t.string) for t in tokenize.generate_tokens(io.StringIO(src).readline) if t.type == tokenize.COMMENT])
    total += emit(out, path, cls, 'list str', 'list str', [comments(c) for c, _ in cs['VALID']], [comments(c) for c, _ in cs['INVALID']], 'fun c => negb (existsb noqa_comment c)', 'existsb noqa_comment')
    # unions
    path, cls = 'rules/replace_union_with_optional.py', 'ReplaceUnionWithOptional'
    cs = cases(path, cls)
    def annotations(src):
        tree, tr, out = ast.parse(src), Tr(src), []
        known = b('Optional' in Names(tree).known())
        for n in ast.walk(tree):
            for a in [getattr(n, 'returns', None), getattr(n, 'annotation', None)]:
                if isinstance(a, ast.Subscript):
                    sl = a.slice.elts if isinstance(a.slice, ast.Tuple) else [a.slice]
                    out.append(f'({known}, {tr.ex(a.value)}, {lst([f"Slice {i}" if isinstance(s, ast.Slice) else "Index " + tr.ex(s) for i, s in enumerate(sl)])})')
        return lst(out)
    ty = 'list (bool * expr * list element)'
    total += emit(out, path, cls, ty, f'{ty} * option ({ty})', [annotations(c) for c, _ in cs['VALID']], [f'({annotations(c)},\n    {opt(annotations, r)})' for c, r in cs['INVALID']], 'union_valid', 'union_invalid')
    # abc imports
    path, cls = 'rules/deprecated_abc_import.py', 'DeprecatedABCImport'
    cs = cases(path, cls)
    abc = lambda src: (lambda S: f'(AbcCase {S.statements()} {S.aliases()} {lst([S.cls(c) for c in S.classes()])})')(Stmts(src))
    total += emit(out, path, cls, 'abc_case', 'abc_case * option abc_case', [abc(c) for c, _ in cs['VALID']], [f'({abc(c)},\n    {opt(abc, r)})' for c, r in cs['INVALID']], 'abc_quiet', 'abc_fixed')
    # upgrade
    path, cls = 'upgrade/deprecated_import.py', 'FixitDeprecatedImport'
    cs = cases(path, cls)
    def dep(src):
        S = Stmts(src)
        return (f'({lst([S.imp(n) for n in ast.walk(S.tree) if isinstance(n, ast.ImportFrom)])}, ' +
                lst([f'({lst([cstr(q) for q in S.names.qual(n)])}, {cstr(n.id)})' for n in ast.walk(S.tree) if isinstance(n, ast.Name)]) + ')')
    ty = 'list import_from * list (list str * str)'
    total += emit(out, path, cls, ty, f'({ty}) * ({ty})', [dep(c) for c, _ in cs['VALID']], [f'({dep(c)},\n    {dep(r)})' for c, r in cs['INVALID']], 'dep_valid', 'dep_invalid')
    path, cls = 'upgrade/remove_rule_suffix.py', 'FixitRemoveRuleSuffix'
    cs = cases(path, cls)
    suf = lambda src: (lambda S: lst([f'({cstr(c.name)}, {lst(["Some " + lst([cstr(q) for q in S.names.qual(x)]) for x in c.bases])})' for c in S.classes()]))(Stmts(src))
    total += emit(out, path, cls, 'list (str * list (option (list str)))', 'list (str * list (option (list str)))', [suf(c) for c, _ in cs['VALID']], [suf(c) for c, _ in cs['INVALID']], 'fun c => negb (suffix_reports c)', 'suffix_reports')
    path, cls = 'upgrade/deprecated_testcase_keywords.py', 'FixitDeprecatedTestCaseKeywords'
    cs = cases(path, cls)
    def calls(src):
        S = Stmts(src)
        xs = [n for n in ast.walk(S.tree) if isinstance(n, ast.Call) and any(q in ('fixit.InvalidTestCase', 'fixit.ValidTestCase') for q in S.names.qual(n))]
        def args(n):
            l = [f'(NoStar, None, {S.tr.ex(a)})' for a in n.args] + [f'(NoStar, Some {cstr(k.arg)}, {S.tr.ex(k.value)})' for k in n.keywords]
            return lst(l)
        return lst([args(n) for n in xs])
    total += emit(out, path, cls, 'list (list arg)', 'list (list arg) * list (list arg)', [calls(c) for c, _ in cs['VALID']], [f'({calls(c)},\n    {calls(r)})' for c, r in cs['INVALID']], 'keywords_valid', 'keywords_invalid')
    open('/verif/rocq/theories/Conformance2.v', 'w').write('\n'.join(out))
    print(total, 'cases about statements')

# ---- the unit tests of ftypes, configuration and suppression ------------------------------------
import tomllib
from pathlib import Path
TESTS = REPO + 'tests/'

def find(path, *names):
    '''the function or class with this path of names'''
    body = ast.parse(open(TESTS + path).read()).body
    for n in names:
        node = next(x for x in body if getattr(x, 'name', None) == n)
        body = node.body
    return node

def loops(fn): return [n for n in ast.walk(fn) if isinstance(n, ast.For)]
def value(e, env): return eval(compile(ast.Expression(e), '<test>', 'eval'), env)

def toml(v):
    if isinstance(v, bool): return f'TBool {b(v)}'
    if isinstance(v, str): return f'TStr {cstr(v)}'
    if isinstance(v, int): return f'TInt {v}'
    if isinstance(v, list): return 'TArr ' + lst([toml(x) for x in v])
    if isinstance(v, dict): return 'TTab ' + table(v)
    raise ValueError(v)
def table(d): return lst([f'({cstr(k)}, {toml(v)})' for k, v in d.items()])
def pathc(p): return lst([cstr(x) for x in Path(p).parts[1:]])
def o(x, f): return 'None' if x is None else f'(Some {f(x)})'
def qrule(q): return f'(QRule {cstr(q.module)} {o(q.name, cstr)} {o(q.local, cstr)} {o(q.root, pathc)})'

class QR:
    def __init__(self, module, name=None, local=None, root=None): self.module, self.name, self.local, self.root = module, name, local, root
class Raw_:
    def __init__(self, path, data): self.path, self.data = path, data
    def coq(self): return f'(Raw {pathc(self.path)} {table(self.data)})'
class Cfg:
    def __init__(self, path=None, root=None, enable_root_import=False, enable=(), disable=(), options=None, python_version='running', output_format='fixit', output_template=''):
        self.__dict__.update(locals())
    def coq(self):
        opts = lst([f'({cstr(k)}, {table(v)})' for k, v in (self.options or {}).items()])
        return (f'(Config {pathc(self.path)} {pathc(self.root)} {"RITrue" if self.enable_root_import else "RIFalse"} {lst([qrule(q) for q in self.enable])} '
                f'{lst([qrule(q) for q in self.disable])} {opts} (Some {cstr(self.python_version)}) no_tags None OF{self.output_format} (TStr {cstr(self.output_template)}))')
class Opt:
    def __init__(self, output_format, output_template): self.f, self.t = output_format, output_template
    def coq(self): return f'(Options None None [] (Some OF{self.f}) {cstr(self.t)})'

# LibCST's assignment of comments to nodes, for the shapes of code that tests/rule.py has
class Places:
    def __init__(self, src):
        self.src, self.lines = src, src.split('\n')
        self.tree = ast.parse(src)
        self.comments, code = {}, set()
        for t in tokenize.generate_tokens(io.StringIO(src).readline):
            if t.type == tokenize.COMMENT: self.comments[t.start[0]] = t.string
            elif t.type not in (tokenize.NL, tokenize.NEWLINE, tokenize.INDENT, tokenize.DEDENT, tokenize.ENDMARKER): code.update(range(t.start[0], t.end[0] + 1))
        self.code = code
        # a comment in a line of its own is not the comment of the line
        self.at = {l: c for l, c in self.comments.items() if l in code}
    def own(self, a, z):       # lines a <= l < z without code
        return [self.comments.get(l) for l in range(a, z) if l not in self.code]
    def ll(self, l): return lst([o(c, cstr) for c in l])
    def info(self, tw=0, body='NoBody', comma=None, rb=None, lb=(), after=(), leading=None, decorator=False):
        t = 'None' if tw == 0 else f'(Some {o(tw, cstr)})'
        ld = 'None' if leading is None else f'(Some {self.ll(leading)})'
        return f'(NInfo {t} {body} {o(comma, cstr)} {o(rb, cstr)} {self.ll(lb)} {self.ll(after)} {ld} {b(decorator)})'
    def start(self, s): return min([s.lineno] + [d.lineno for d in getattr(s, 'decorator_list', [])])
    def places(self):
        '''(message, place) of every node that the rule of the test reports, except the module'''
        out, prev = [], 0
        for i, s in enumerate(self.tree.body):
            lead = self.own(prev + 1, self.start(s))
            header, leading = (lead, []) if i == 0 else (None, lead)
            self.header = header if i == 0 else self.header
            place = lambda nodes: f'(Place {lst(nodes)} {self.ll(self.header)} {b(i == 0)})'
            eol = self.at.get(s.end_lineno)
            if isinstance(s, (ast.Pass, ast.Expr)):
                line = self.info(tw=eol, leading=leading)
                if isinstance(s, ast.Pass): out.append(('I pass', place([self.info(), line])))
                elif isinstance(s.value, (ast.List, ast.ListComp)):
                    v = s.value
                    elt = v.elts[0] if isinstance(v, ast.List) else v.elt
                    many = v.lineno != v.end_lineno
                    lb = ([self.at.get(v.lineno)] + self.own(v.lineno + 1, elt.lineno)) if many else []
                    after = self.at.get(elt.end_lineno) if many else None
                    if isinstance(v, ast.List):     # the comma of the element
                        nodes = [self.info(), self.info(comma=after), self.info(lb=lb), self.info(), line]
                    else: nodes = [self.info(), self.info(rb=after, lb=lb), self.info(), line]
                    out.append(('I ellipse', place(nodes)))
            elif isinstance(s, (ast.FunctionDef, ast.ClassDef)):
                decs = s.decorator_list
                after = self.own(max(d.end_lineno for d in decs) + 1, s.lineno) if decs else []
                one = s.body[0].lineno == s.lineno
                # the header of the block, or the end of the line
                bodyk = f'(SimpleSuite {o(eol, cstr)})' if one else f'(Indented {o(self.at.get(s.lineno), cstr)})'
                stmt = self.info(body=bodyk, after=after, leading=leading)
                if isinstance(s, ast.ClassDef):
                    out.append(('class def', place([stmt])))
                    for d in decs: out.append(('class decorator', place([self.info(tw=self.at.get(d.end_lineno), leading=[], decorator=True), stmt])))
                else:
                    if s.name == 'problem': out.append(('problem function', place([stmt])))
                    elif one and isinstance(s.body[0], ast.Pass) and VISIT_FUNCTION: out.append(('I pass', place([self.info(), self.info(tw=eol), stmt])))
            prev = s.end_lineno
        return out
VISIT_FUNCTION = True

PRELUDE3 = '''(** * Conformance3: the unit tests of rule names, tags, directives, configuration and suppression

    Written by tools/conformance.py from /repo/src/fixit/tests/ftypes.py, config.py and rule.py; see
    Conformance.v. *)
From Coq Require Import String List NArith ZArith Bool Arith.
From Verif Require Import Base PyStr Regex Ftypes Paths Config Suppress.
Import ListNotations.
Open Scope N_scope.

Definition U0 : unicode := Build_unicode (fun _ => false) (fun s => s).
Definition directive (s : str) : option (option str) :=
  match re_match (LintIgnoreRegex U0) s with Some x => Some (group 2 (st_caps x)) | None => None end.
Definition no_root (r : res qrule) : option (option str * str * option str) :=
  match r with Ok q => Some (q_local q, q_module q, q_name q) | Err _ => None end.
Definition has (t : str) (v : tagval) : option bool := match tags_parse U0 t with Ok t => Some (tags_contains t v) | Err _ => None end.
Definition truth (t : str) : option bool := match tags_parse U0 t with Ok t => Some (tags_bool t) | Err _ => None end.
'''

def main3():
    out, total = [PRELUDE3], 0
    def group(name, pairs, left):
        nonlocal total
        total += len(pairs)
        out.append(f'Example {name} : map ({left}) {lst([a for a, _ in pairs])} =\n  {lst([x for _, x in pairs])}.\nProof. vm_compute. reflexivity. Qed.\n')
    T = lambda f: find('ftypes.py', 'TypesTest', f)
    a, z = loops(T('test_ignore_comment_regex'))
    group('ignore_comment_regex', [(cstr(v), f'Some {o(n, cstr)}') for v, n in value(a.iter, {})] + [(cstr(v), 'None') for v in value(z.iter, {})], 'directive')
    (a,) = loops(T('test_qualified_rule'))
    group('qualified_rule', [(cstr(v), 'None' if x is None else f'Some ({o(x["local"], cstr)}, {cstr(x["module"])}, {o(x["name"], cstr)})') for v, x in value(a.iter, {})], 'fun s => no_root (parse_rule s [])')
    (a,) = loops(T('test_tags_parser'))
    f = lambda l: lst([cstr(x) for x in l])
    group('tags_parser', [(cstr(v or ''), f'Ok (Tags {f(x[0])} {f(x[1])})') for v, x in value(a.iter, {'Tags': lambda i=(), e=(): (i, e)})], 'tags_parse U0')
    a, z = loops(T('test_tags_bool'))
    group('tags_bool_', [(cstr(v or ''), 'Some true') for v in value(a.iter, {})] + [(cstr(v or ''), 'Some false') for v in value(z.iter, {})], 'truth')
    a, z = loops(T('test_tags_contains'))
    tv = lambda v: f'TagStr {cstr(v)}' if isinstance(v, str) else f'TagColl {f(v)}' if isinstance(v, list) else 'TagOther'
    group('tags_contains_', [(f'({cstr(t)}, {tv(v)})', f'Some {x}') for l, x in ((a, 'true'), (z, 'false')) for v, t in value(l.iter, {})], 'fun c => has (fst c) (snd c)')
    # configuration
    C = lambda n: find('config.py', 'ConfigTest', n)
    tdp = Path('/t')
    class Self: pass
    me = Self(); me.tdp, me.outer, me.inner = tdp, tdp / 'outer', tdp / 'outer/inner'
    env = {'self': me, 'Path': Path, 'Config': Cfg, 'RawConfig': Raw_, 'QualifiedRule': QR, 'Version': lambda v: v, 'Options': Opt,
           'OutputFormat': type('F', (), {'custom': 'custom', 'fixit': 'fixit', 'vscode': 'vscode'})}
    files = {}
    for n in ast.walk(C('setUp')):
        if isinstance(n, ast.Call) and isinstance(n.func, ast.Attribute) and n.func.attr == 'write_text':
            files[value(n.func.value, env)] = textwrap.dedent(value(n.args[0].args[0], env))
    def world(name, files):
        keys = lst([f'({cstr(str(p))}, {table(tomllib.loads(t))})' for p, t in files.items()])
        dirs = lst([pathc(p) for p in ('/', '/t', '/t/outer', '/t/outer/inner')])
        out.append(f'''Definition {name}_files : list (str * table) := {keys}.
Definition {name}_env : env := Env (fun s => match dget s {name}_files with Some t => Ok t | None => Err OSError end) (fun _ => true) (u "running") [] (fun l => l).
Definition {name}_fs : fs := FS (fun p => let s := u "/" ++ join (u "/") p in if existsb (str_eqb s) (map fst {name}_files) then Some s else None)
  (fun p => existsb (path_eqb p) {dirs}).
''')
    world('project', files)
    (a,) = loops(C('test_locate_configs'))
    group('locate_configs_', [(f'({pathc(p)}, {o(r, pathc)})', f'Ok {lst([pathc(x) for x in xs])}') for _, p, r, xs in value(a.iter, env)], 'fun c : path * option path => locate_configs project_fs (fst c) (snd c)')
    fn = C('test_read_configs')
    e2 = dict(env)
    for st in fn.body:
        if isinstance(st, ast.Assign): e2[st.targets[0].id] = value(st.value, e2)
    (a,) = loops(fn)
    group('read_configs_', [(lst([pathc(p) for p in ps]), f'Ok {lst([r.coq() for r in rs])}') for _, ps, rs in value(a.iter, e2)], 'read_configs project_env project_fs')
    fn = C('test_merge_configs')
    e2 = dict(env); e2['root'] = tdp; e2['target'] = tdp / 'a/b/c/foo.py'
    params = next(st.value for st in fn.body if isinstance(st, ast.AnnAssign))
    group('merge_configs_', [(lst([r.coq() for r in rs]), f'Ok {c.coq()}') for _, rs, c in value(params, e2)],
          f'fun rs => match merge_configs project_env {pathc(e2["target"])} rs None with Ok x => Ok (fst x) | Err e => Err e end')
    (a,) = loops(C('test_generate_config'))
    group('generate_config_', [(f'({pathc(p)}, {o(r, pathc)}, {"None" if x is None else "Some " + x.coq()})', f'Ok {c.coq()}') for _, p, r, x, c in value(a.iter, env)],
          'fun c : path * option path * option options => match c with (p, r, x) => generate_config project_env project_fs p r x end')
    # test_invalid_config
    bad = []
    for i, n in enumerate([x for x in C('test_invalid_config').body if isinstance(x, ast.With)]):
        fs = {}
        for k in ast.walk(n):
            if isinstance(k, ast.Call) and isinstance(k.func, ast.Attribute) and k.func.attr == 'write_text': fs[value(k.func.value, env)] = value(k.args[0], env)
        world(f'bad{i}', {**files, **fs})
        out.append(f'Example invalid_config_{i} : generate_config bad{i}_env bad{i}_fs {pathc(me.outer / "foo.py")} None None = Err ConfigError.\nProof. vm_compute. reflexivity. Qed.\n'); total += 1
    # suppression
    (a,) = [l for l in loops(find('rule.py', 'RuleTest', 'test_ignore_lint'))][:1]
    pairs = []
    for code, message, pos in value(a.iter, {}):
        P = Places(textwrap.dedent(code))
        pairs.append((lst([f'({cstr(m)}, {p})' for m, p in P.places()]), lst([cstr(message)] if message else [])))
    group('ignore_lint_', pairs, 'fun l : list (str * place) => map fst (filter (fun x => negb (ignore_lint U0 (u "ExerciseReport") (snd x))) l)')
    open('/verif/rocq/theories/Conformance3.v', 'w').write('\n'.join(out))
    print(total, 'unit tests')

def main():
    out = [PRELUDE]
    total = skipped = 0
    for path, cls, model, kind in RULES:
        cs = cases(path, cls)
        vs, ivs, lens = [], [], {}
        for code, _ in cs['VALID']:
            tr = Tr(code)
            try: vs.append(lst(tr.forest(ast.parse(code), kind == 'if'))); total += 1
            except SyntaxError: skipped += 1; print('skipped', cls, repr(code)[:80])
            lens.update(tr.lengths)
        for code, rep in cs['INVALID']:
            tr = Tr(code)
            try:
                before = lst(tr.forest(ast.parse(code), kind == 'if'))
                after = 'None' if rep is None else 'Some ' + lst(Tr(rep).forest(ast.parse(rep), kind == 'if'))
                ivs.append(f'({before},\n    {after})'); total += 1
            except SyntaxError: skipped += 1; print('skipped', cls, repr(code)[:80])
            lens.update(tr.lengths)
        nm = cls
        m = model
        if 'LEN' in m:
            out.append(f'Definition {nm}_lengths : list (str * nat) := ' + lst([f'(show {k}, {v}%nat)' for k, v in lens.items()]) + '.\n')
            m = m.replace('LEN', nm + '_lengths')
        out.append(f'(** /repo/src/fixit/{path} {cls} *)\nDefinition {nm}_VALID : list (list expr) :=\n  [' + ';\n   '.join(vs) + '].\n')
        out.append(f'Definition {nm}_INVALID : list (list expr * option (list expr)) :=\n  [' + ';\n   '.join(ivs) + '].\n')
        if kind == 'if': fv, fi = f'fun es => forallb (fun e => match {m} e with None => true | _ => false end) es', f'fun c => existsb (fun e => match {m} e with None => false | _ => true end) (fst c)'
        else: fv, fi = f'valid ({m})', f'invalid ({m})'
        out.append(f'Example {nm}_conforms : wrong ({fv}) {nm}_VALID = [] /\\ wrong ({fi}) {nm}_INVALID = [].\nProof. vm_compute. split; reflexivity. Qed.\n')
    open('/verif/rocq/theories/Conformance.v', 'w').write('\n'.join(out))
    print(total, 'cases,', skipped, 'skipped')
if __name__ == '__main__':
    main()
    main2()
    main3()
