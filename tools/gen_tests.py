"""
Translates the expectations of the project's own unit tests (tests/unit_tests) into Coq examples.

usage: python3 gen_tests.py REPO OUTPUT_DIRECTORY

The test files are read as text (ast); nothing of the project is imported or run.  The result, T_*.v, is a test of the
model, not a proof: the kernel evaluates the model on the arguments of the tests and compares with the expected values.
"""
import ast
import sys
import uuid
import xml.etree.ElementTree as ET
from pathlib import Path

REPO = Path(sys.argv[1])
OUT = Path(sys.argv[2])
TESTS = REPO / "tests" / "unit_tests"


class Obj:
    def __init__(self, cls, args, kw):
        self.cls, self.args, self.kw = cls, args, kw

    def get(self, name, default=None):
        return self.kw.get(name, default)


class Name(str):
    """a dotted name that is left alone, e.g. an enum member"""


class Lambda:
    def __init__(self, node):
        self.node = node


def evaluate(node, env):
    if isinstance(node, ast.Constant):
        return node.value
    if isinstance(node, ast.List):
        return [evaluate(x, env) for x in node.elts]
    if isinstance(node, ast.Tuple):
        return tuple(evaluate(x, env) for x in node.elts)
    if isinstance(node, ast.Set):
        return {"set": [evaluate(x, env) for x in node.elts]}
    if isinstance(node, ast.Dict):
        return {evaluate(k, env): evaluate(v, env) for k, v in zip(node.keys, node.values)}
    if isinstance(node, ast.Name):
        return env[node.id] if node.id in env else Name(node.id)
    if isinstance(node, ast.Lambda):
        return Lambda(node)
    if isinstance(node, ast.Attribute):
        base = evaluate(node.value, env)
        if isinstance(base, Obj):
            return base.get(node.attr)
        return Name(f"{base}.{node.attr}")
    if isinstance(node, ast.Call):
        f = ast.unparse(node.func)
        args = [evaluate(x, env) for x in node.args]
        kw = {k.arg: evaluate(k.value, env) for k in node.keywords}
        if f in ("UUID", "uuid.UUID"):
            return uuid.UUID(args[0])
        if f == "pytest.param":
            return ("param", args)
        return Obj(f, args, kw)
    if isinstance(node, ast.JoinedStr):
        raise NotImplementedError
    if isinstance(node, ast.ListComp):
        # [x[1] for x in name], [line for line, _, _ in name]
        (gen,) = node.generators
        result = []
        for item in evaluate(gen.iter, env):
            inner = dict(env)
            if isinstance(gen.target, ast.Name):
                inner[gen.target.id] = item
            else:
                for t, v in zip(gen.target.elts, item):
                    inner[t.id] = v
            result.append(evaluate(node.elt, inner))
        return result
    if isinstance(node, ast.Subscript):
        return evaluate(node.value, env)[evaluate(node.slice, env)]
    raise NotImplementedError(ast.dump(node)[:200])


def module(name, env=None):
    tree = ast.parse((TESTS / name).read_text(encoding="utf-8"))
    env = dict(env or {})
    tests = {}
    for node in tree.body:
        if isinstance(node, ast.Assign) and isinstance(node.targets[0], ast.Name):
            try:
                env[node.targets[0].id] = evaluate(node.value, env)
            except NotImplementedError:
                pass
        if isinstance(node, ast.ClassDef):
            for m in node.body:
                if isinstance(m, ast.Assign) and isinstance(m.targets[0], ast.Name):
                    env[m.targets[0].id] = evaluate(m.value, env)
                if isinstance(m, (ast.FunctionDef, ast.AsyncFunctionDef)) and m.name.startswith("test_"):
                    tests[m.name] = m
        if isinstance(node, (ast.FunctionDef, ast.AsyncFunctionDef)) and node.name.startswith("test_"):
            tests[node.name] = node
    return env, tests


def cases(env, test):
    """the products of the parametrizations, as dictionaries"""
    result = [{}]
    for d in reversed(test.decorator_list):
        if isinstance(d, ast.Call) and ast.unparse(d.func).endswith("parametrize"):
            names = [x.strip() for x in d.args[0].value.split(",")]
            params = []
            for x in evaluate(d.args[1], env):
                params.append(x[1] if isinstance(x, tuple) and x[:1] == ("param",) else ([x] if len(names) == 1 else x))
            result = [dict(r, **dict(zip(names, p))) for r in result for p in params]
    return result


# ---- rendering

def text(s):
    return '(u "' + s.replace('"', '""') + '")'


def opt(f, x):
    return "None" if x is None else f"(Some {f(x)})"


def lst(f, xs):
    return "[" + "; ".join(f(x) for x in xs) + "]"


def otext(x):
    return opt(text, x)


def boolean(b):
    return "true" if b else "false"


def number(z):
    return f"({z})%Z"


def guid(x):
    return "None" if x is None else f"(Some {x.int}%N)"


def sgh(o):
    return f"(mkSgh {otext(o.get('segment_group'))} {text(o.get('opening_segment'))} {opt(lambda l: lst(sgh, l), o.get('sub_hierarchy'))})"


def line(o):
    g = o.get
    return ("(mkLine " + guid(g("guid")) + " " + " ".join(otext(g(k)) for k in (
        "segment_group_key", "segment_code", "data_element", "segment_id", "value_pool_entry", "name", "ahb_expression",
        "conditions", "section_name")) + " " + opt(number, g("index")) + ")")


def meta(o):
    g = o.get
    return f"(mkMeta {text(g('pruefidentifikator'))} {otext(g('maus_version', '0.3.0'))} {otext(g('description'))} {otext(g('direction'))})"


def flat(o):
    return f"(mkFlat {meta(o.get('meta'))} {lst(line, o.get('lines'))})"


def entry(o):
    return f"(mkEntry {text(o.get('qualifier'))} {text(o.get('meaning'))} {text(o.get('ahb_expression'))})"


def value_type(o, default):
    v = o.get("value_type", default)
    return "(Some " + str(v).rsplit(".", maxsplit=1)[-1] + ")"


def element_fields(o, default):
    g = o.get
    return f"{otext(g('discriminator'))} {text(g('data_element_id'))} {otext(g('entered_input'))} {value_type(o, default)}"


def free_text(o):
    return f"(mkFreeText {element_fields(o, 'TEXT')} {text(o.get('ahb_expression'))})"


def pool(o):
    return f"(mkPool {element_fields(o, 'VALUE_POOL')} {lst(entry, o.get('value_pool'))})"


def data_element(o):
    return f"(DFree {free_text(o)})" if o.cls == "DataElementFreeText" else f"(DPool {pool(o)})"


def segment(o):
    g = o.get
    return (f"(mkSegment {text(g('discriminator'))} {text(g('ahb_expression'))} {opt(number, g('ahb_line_index'))} "
            f"{lst(data_element, g('data_elements'))} {otext(g('section_name'))} {otext(g('segment_id'))})")


def group(o):
    g = o.get
    return (f"(mkGroup {text(g('discriminator'))} {text(g('ahb_expression'))} {opt(number, g('ahb_line_index'))} "
            f"{opt(lambda l: lst(segment, l), g('segments'))} {opt(lambda l: lst(group, l), g('segment_groups'))})")


def deep(o):
    return f"(mkDeep {meta(o.get('meta'))} {lst(group, o.get('lines'))})"


def level(o):
    return f"(mkLevel {text(o.get('name'))} {boolean(o.get('is_groupable'))} {opt(number, o.get('index'))})"


def stack(o):
    if o.cls == "EdifactStack.from_json_path":
        return f"(from_json_path {text(o.args[0])})"
    return lst(level, o.get("levels"))


def layer(o):
    g = o.get
    return f"(mkLayer {otext(g('segment_group_key'))} {text(g('opening_segment_code'))} {otext(g('opening_qualifier'))})"


def location(o):
    g = o.get
    return (f"(mkLocation {boolean(o.cls == '_PseudoAhbLocation')} {lst(layer, g('layers'))} {otext(g('segment_code'))} "
            f"{otext(g('data_element_id'))} {otext(g('qualifier'))})")


def json(v):
    if v is None:
        return "JNull"
    if isinstance(v, bool):
        return f"(JBool {boolean(v)})"
    if isinstance(v, int):
        return f"(JInt {number(v)})"
    if isinstance(v, str):
        return f"(JStr {text(v)})"
    if isinstance(v, list):
        return f"(JList {lst(json, v)})"
    return "(JObj [" + "; ".join(f"({text(k)}, {json(x)})" for k, x in v.items()) + "])"


def row(d):
    return "[" + "; ".join(f"({text(k)}, {otext(v)})" for k, v in d.items()) + "]"


def pair(f, g):
    return lambda p: f"({f(p[0])}, {g(p[1])})"


def predicate(lam, var):
    """lambda x: <boolean expression about attributes of x>"""
    fields = {("g", "discriminator"): "g_discriminator", ("g", "ahb_expression"): "g_expression",
              ("seg", "discriminator"): "seg_discriminator", ("seg", "ahb_expression"): "seg_expression"}
    arg = lam.node.args.args[0].arg

    def tr(n):
        if isinstance(n, ast.Constant) and isinstance(n.value, bool):
            return boolean(n.value)
        if isinstance(n, ast.Constant):
            return text(n.value)
        if isinstance(n, ast.Attribute) and isinstance(n.value, ast.Name) and n.value.id == arg:
            return f"({fields[(var, n.attr)]} x)"
        if isinstance(n, ast.Compare) and isinstance(n.ops[0], ast.Eq):
            return f"(str_eqb {tr(n.left)} {tr(n.comparators[0])})"
        if isinstance(n, ast.Compare) and isinstance(n.ops[0], ast.NotEq):
            return f"(negb (str_eqb {tr(n.left)} {tr(n.comparators[0])}))"
        if isinstance(n, ast.Call) and isinstance(n.func, ast.Attribute) and n.func.attr in ("startswith", "endswith"):
            return f"({n.func.attr} {tr(n.func.value)} {tr(n.args[0])})"
        if isinstance(n, ast.Compare) and isinstance(n.ops[0], ast.Gt):
            return f"(Nat.ltb {n.comparators[0].value} (List.length {tr(n.left.args[0])}))"
        raise NotImplementedError(ast.unparse(n))

    return f"(fun x => {tr(lam.node.body)})"


def position(xml, xpath):
    """the indices of the children on the way to the element"""
    root = ET.fromstring(xml)
    path = xpath.lstrip("/").split("/")
    assert path[0] == root.tag
    (found,) = root.findall("./" + "/".join(path[1:]))
    parents = {c: (p, i) for p in root.iter() for i, c in enumerate(p)}
    result = []
    while found is not root:
        found, i = parents[found]
        result.insert(0, str(i))
    return "[" + "; ".join(result) + "]%nat"


def xml_element(e):
    """the model puts all the text of an element together"""
    all_text = (e.text or "") + "".join(x.tail or "" for x in e)
    return (f"(Element {text(e.tag)} [" + "; ".join(f"({text(k)}, {text(v)})" for k, v in e.attrib.items()) + f"] {otext(all_text or None)} {lst(xml_element, e)})")


HEADER = """(** Generated by tools/gen_tests.py from tests/unit_tests/{name}: a test of the model, not a proof.
    The model is evaluated on the arguments of the project's own unit tests and compared with the values expected there. *)
From Coq Require Import Ascii String List NArith ZArith Bool.
From Verif Require Import {imports}.
Import ListNotations.
Local Open Scope list_scope.

"""


class Output:
    def __init__(self, coq_name, name, imports, extra=""):
        self.path = OUT / f"{coq_name}.v"
        self.text = HEADER.format(name=name, imports=imports) + extra
        self.source = name
        self.counter = {}

    def example(self, test, statement, proof="vm_compute. repeat split; reflexivity."):
        n = self.counter[test.name] = self.counter.get(test.name, 0) + 1
        self.text += (f"(** tests/unit_tests/{self.source}:{test.lineno} *)\nExample {test.name}_{n} :\n  {statement}.\n"
                      f"Proof. {proof} Qed.\n")

    def save(self):
        self.path.write_text(self.text, encoding="utf-8")
        print(self.path.name, sum(self.counter.values()))


ROUND_TRIP = """(** serialization_test_helper.py:9-24; keys of JSON objects have no order *)
Definition round_trip {A} (dump : A -> json) (load : json -> result A) (x : A) (expected : json) : Prop :=
  sort_keys (dump x) = sort_keys expected /\\ load (dump x) = Ok x.
(** no class attribute of the enum is used *)
Definition no_attribute : pystr -> option bool := fun _ => None.

"""


def test_navigation():
    data, _ = module("example_data_11042.py")
    env, tests = module("test_navigation.py", data)
    out = Output("T_Navigation", "test_navigation.py", "PyBase PyStr M_Ahb M_Sgh M_Navigation")
    for name, f in (("test_enhance_line_with_next_segment", "enhance_with_next_segment"),
                    ("test_enhance_line_with_next_value_pool_entry", "enhance_with_next_value_pool_entry")):
        for c in cases(env, tests[name]):
            out.example(tests[name], f"{f} {lst(line, c['lines'])} = Ok {lst(pair(line, otext), c['expected'])}")
    t = tests["test_is_opening_segment_line_border"]
    for c in cases(env, t):
        out.example(t, f"is_opening_segment_line_border {line(c['this_line'])} {line(c['next_line'])} "
                       f"{otext(c['next_filled_segment'])} {text(c['opening_segment'])} = {boolean(c['expected_result'])}")
    t = tests["test_ahb_position_is_sub_or_parent_of"]
    for c in cases(env, t):
        x, y = location(c["location_x"]), location(c["location_y"])
        out.example(t, f"is_sub_location_of {x} {y} = {boolean(c['x_is_sub_of_y'])} /\\ "
                       f"location_is_parent_of {y} {x} = {boolean(c['y_is_parent_of_x'])}")
    t = tests["test_find_common_ancestor"]
    for c in cases(env, t):
        out.example(t, f"find_common_ancestor {location(c['location_x'])} {location(c['location_y'])} = Ok {location(c['expected'])}")
    t = tests["test_find_no_common_ancestor"]
    for c in cases(env, t):
        out.example(t, f"find_common_ancestor {location(c['location_x'])} {location(c['location_y'])} = Raise ValueError")
    t = tests["test_find_common_ancestor_from_sgh"]
    for c in cases(env, t):
        out.example(t, f"find_common_ancestor_from_sgh {otext(c['sg_x'])} {otext(c['sg_y'])} {sgh(c['sgh'])} = Ok {location(c['expected'])}")
    t = tests["test_calculate_distance"]
    for c in cases(env, t):
        e = c["expected"]
        out.example(t, f"calculate_distance {location(c['location_x'])} {location(c['location_y'])} = "
                       f"Ok (mkDistance {e.get('layers_up')} {e.get('layers_down')})")
    t = tests["test_remove_grouped_ahb_lines_containing_section_name"]
    out.example(t, f"List.length (remove_grouped_ahb_lines_containing_section_name {lst(lambda l: lst(line, l), evaluate(t.body[0].value, env))} {text(t.body[1].value.args[1].value)}) = 1")
    out.save()
    out = Output("T_Navigation11042", "test_navigation.py", "PyBase PyStr M_Ahb M_Sgh M_Navigation")
    out.text += f"(** tests/unit_tests/example_data_11042.py *)\nDefinition example_sgh : Sgh := {sgh(env['example_sgh_11042'])}.\n"
    triples = env["lines_locations_changes_11042"]
    out.text += "(** tests/unit_tests/example_data_11042.py *)\nDefinition example : list (AhbLine * Location * Change) := [\n"
    out.text += ";\n".join(f"({line(a)}, {location(b)}, {str(c).rsplit('.', maxsplit=1)[-1]})" for a, b, c in triples) + "].\n"
    out.text += "(** tests/unit_tests/example_data_11042.py *)\nDefinition example_lines : list AhbLine := map (fun x => fst (fst x)) example.\n"
    t = tests["test_determine_locations"]
    out.example(t, "match determine_locations example_sgh example_lines with Ok l => map snd l | Raise _ => [] end = map (fun x => snd (fst x)) example")
    t = tests["test_determine_differential_changes"]
    out.example(t, "match determine_hierarchy_changes example_lines example_sgh with Ok l => map snd l | Raise _ => [] end = map snd example")
    out.save()


def test_mig():
    env, tests = module("test_mig.py")
    out = Output("T_Mig", "test_mig.py", "PyBase PyStr M_Sgh M_Schema M_Cli M_JsonText", ROUND_TRIP)
    t = tests["test_segment_group_hierarchy_serialization_roundtrip"]
    for c in cases(env, t):
        out.example(t, f"round_trip dump_sgh load_sgh {sgh(c['sgh'])} {json(c['expected_json_dict'])}")
    t = tests["test_flattening"]
    for c in cases(env, t):
        content = (TESTS / "migs/FV2204/segment_group_hierarchies" / c["sgh_file_path"]).read_text(encoding="utf-8")
        out.example(t, f"(let* j := loads (fun _ => None) {text(content)} in let* h := load_sgh j in Ok (flattened h)) = Ok {lst(pair(otext, text), c['expected_flattened'])}")
    t = tests["test_is_hierarchically_below"]
    for c in cases(env, t):
        out.example(t, f"is_hierarchically_below {sgh(c['sgh'])} {otext(c['sg_key'])} = {boolean(c['expected_is_below'])}")
    t = tests["test_sg_is_hierarchically_below"]
    for c in cases(env, t):
        out.example(t, f"sg_is_hierarchically_below {sgh(c['sgh'])} {otext(c['sg_key_x'])} {otext(c['sg_key_y'])} = {boolean(c['expected_sg_is_below'])}")
    out.save()


def test_components():
    env, tests = module("test_edifact_components.py")
    out = Output("T_Components", "test_edifact_components.py", "PyBase PyStr M_Components M_Ahb M_Schema M_Cli", ROUND_TRIP)
    for name, arg, render, dump, load in (
            ("test_free_text_serialization_roundtrip", "free_text", free_text, "dump_free_text", "(load_free_text no_attribute)"),
            ("test_value_pool_serialization_roundtrip", "value_pool", pool, "dump_pool", "(load_pool no_attribute)"),
            ("test_segment_serialization_roundtrip", "segment", segment, "dump_segment", "(load_segment no_attribute)"),
            ("test_segment_group_serialization_roundtrip", "segment_group", group, "dump_group", "(load_group no_attribute)")):
        for c in cases(env, tests[name]):
            out.example(tests[name], f"round_trip {dump} {load} {render(c[arg])} {json(c['expected_json_dict'])}")
    t = tests["test_empty_entered_input_is_not_dumped"]
    for c in cases(env, t):
        d = c["data_element"]
        dumped = f"dump_pool {pool(d)}" if d.cls == "DataElementValuePool" else f"dump_free_text {free_text(d)}"
        out.example(t, f"match {dumped} with JObj o => existsb (fun x => str_eqb (fst x) (u \"entered_input\")) o | _ => true end = false")
    t = tests["test_segment_get_value_pools"]
    for c in cases(env, t):
        out.example(t, f"List.length (segment_value_pools {segment(c['segment'])}) = {c['expected_result_length']}")
    t = tests["test_segment_group_get_value_pools"]
    for c in cases(env, t):
        out.example(t, f"List.length (group_value_pools {group(c['segment_group'])}) = {c['expected_result_length']}")
    t = tests["test_edifact_stack_is_sub_or_parent_of"]
    for c in cases(env, t):
        x, y = stack(c["stack_x"]), stack(c["stack_y"])
        out.example(t, f"is_sub_stack_of {x} {y} = {boolean(c['x_is_sub_stack_of_y'])} /\\ stack_is_parent_of {x} {y} = {boolean(c['x_is_parent_of_y'])}")
    t = tests["test_edifact_stack_to_from_json_path"]
    for c in cases(env, t):
        out.example(t, f"to_json_path (from_json_path {text(c['json_path'])}) = {text(c['json_path'])}")
    for name, merger in (("test_replacing_value_pool_entries", "None"),
                         ("test_replacing_value_pool_entries_with_merger",
                          "(Some (fun meaning old => meaning ++ u \" (\" ++ old ++ u \")\"))")):
        t = tests[name]
        local = dict(env)
        for s in t.body:
            if isinstance(s, ast.Assign):
                local[s.targets[0].id] = evaluate(s.value, local)
        expected = evaluate(t.body[-1].test.comparators[0], local)
        out.example(t, f"replace_value_pool {row(local['mapping'])} {merger} {pool(local['data_element'])} = "
                       f"({pool(Obj('DataElementValuePool', [], dict(local['data_element'].kw, value_pool=expected)))}, None)")
    t = tests["test_has_value_pool_which_is_subset_of"]
    for c in cases(env, t):
        local = dict(env)
        local["data_element"] = evaluate(t.body[0].value, local)
        candidate = c["candidate"]["set"] if isinstance(c["candidate"], dict) else list(c["candidate"])
        out.example(t, f"has_value_pool_which_is_subset_of {pool(local['data_element'])} {lst(text, candidate)} = {boolean(c['expected'])}")
    out.save()


def test_ahb():
    env, tests = module("test_ahb.py")
    out = Output("T_Ahb", "test_ahb.py", "PyBase PyStr M_Components M_Ahb M_Schema M_Cli", ROUND_TRIP)
    for name, arg, render, dump, load in (
            ("test_ahb_meta_information_serialization_roundtrip", "ahb", meta, "dump_meta", "load_meta"),
            ("test_ahbline_serialization_roundtrip", "ahb_line", line, "dump_line", "load_line"),
            ("test_flatahb_serialization_roundtrip", "flat_ahb", flat, "dump_flat", "load_flat"),
            ("test_deep_ahb_serialization_roundtrip", "deep_ahb", deep, "dump_deep", "(load_deep no_attribute)")):
        for c in cases(env, tests[name]):
            out.example(tests[name], f"round_trip {dump} {load} {render(c[arg])} {json(c['expected_json_dict'])}")
    for name, x, y, render, eqb, copy in (
            ("test_ahb_meta_information_equality", "ahb_x", "ahb_y", meta, "meta_eqb", "load_meta (dump_meta {})"),
            ("test_ahb_line_equality", "line_x", "line_y", line, "line_eqb", "load_line (dump_line {})"),
            ("test_deep_ahb_equality", "ahb_x", "ahb_y", deep, "deep_eqb", None)):
        for c in cases(env, tests[name]):
            if c[y].cls.endswith(".loads"):
                out.example(tests[name], f"match {copy.format(render(c[y].args[0].args[0]))} with Ok y => {eqb} {render(c[x])} y | Raise _ => false end = {boolean(c['are_equal'])}")
                continue
            out.example(tests[name], f"{eqb} {render(c[x])} {render(c[y])} = {boolean(c['are_equal'])}")
    t = tests["test_ahbline_holds_any_information"]
    for c in cases(env, t):
        out.example(t, f"holds_any_information {line(c['ahb_line'])} = {boolean(c['expected_holds_any_information'])}")
    t = tests["test_ahbline_get_discriminator"]
    for c in cases(env, t):
        out.example(t, f"get_discriminator {line(c['ahb_line'])} {boolean(c['include_name'])} = {text(c['expected_discriminator'])}")
    t = tests["test_get_segment_groups"]
    for c in cases(env, t):
        out.example(t, f"get_available_segment_groups {lst(line, c['lines'])} = {lst(otext, c['expected_group_names'])}")
    t = tests["test_sorted_segment_groups"]
    for c in cases(env, t):
        out.example(t, f"sorted_lines_by_segment_groups {lst(line, c['unsorted_input'])} {lst(otext, c['sg_order'])} = Ok {lst(line, c['expected_result'])}")
    t = tests["test_replacing_data_element_inputs"]
    found = {}
    for s in [f for f in t.body if isinstance(f, ast.FunctionDef)][0].body:
        if isinstance(s, ast.If):
            found[s.test.comparators[0].value] = evaluate(s.body[0].value, env).get("input_replacement")
    function = "(fun d => " + "".join(f"if str_eqb d {text(k)} then mkReplacement true {otext(v)} else " for k, v in found.items()) + "mkReplacement false None)"
    for c in cases(env, t):
        out.example(t, f"replace_inputs_based_on_discriminator {deep(c['original'])} {function} = {deep(c['expected'])}")
    t = tests["test_deep_ahb_get_value_pools"]
    for c in cases(env, t):
        out.example(t, f"List.length (get_all_value_pools {deep(c['deep_ahb'])}) = {c['expected_result_length']}")
    out.save()


def test_searching():
    env, tests = module("test_searching_in_models.py")
    out = Output("T_Searching", "test_searching_in_models.py", "PyBase PyStr M_Components M_Ahb")
    t = tests["test_find_segment_in_segment_group"]
    for c in cases(env, t):
        out.example(t, f"List.length (group_find_segments {predicate(c['search_predicate'], 'seg')} true {group(c['segment_group'])}) = {c['number_of_results']}")
    t = tests["test_find_segment_group_from_deep_ahb"]
    for c in cases(env, t):
        out.example(t, f"List.length (find_segment_groups {deep(c['deep_ahb'])} {predicate(c['search_predicate'], 'g')}) = {c['number_of_results']}")
    t = tests["test_find_segments_from_deep_ahb"]
    for c in cases(env, t):
        out.example(t, f"List.length (find_segments {deep(c['deep_ahb'])} {predicate(c['group_predicate'], 'g')} {predicate(c['segment_predicate'], 'seg')}) = {c['number_of_results']}")
    t = tests["test_get_all_expressions"]
    for c in cases(env, t):
        out.example(t, f"get_all_expressions {deep(c['deep_ahb'])} = {lst(text, c['expected_result'])}")
    out.save()


def test_csv():
    env, tests = module("test_ahb_csv_reader.py")
    out = Output("T_Csv", "test_ahb_csv_reader.py", "PyBase PyStr M_Components M_Ahb M_CsvReader", '''(** two dictionaries are equal *)
Definition same_dict (a b : row) : bool :=
  forallb (fun k => match dict_get k a, dict_get k b with
                    | Some x, Some y => ostr_eqb x y
                    | None, None => true
                    | _, _ => false
                    end) (map fst a ++ map fst b).

''')
    t = tests["test_ahb_expression_column_finder"]
    for c in cases(env, t):
        out.example(t, f"get_name_of_expression_column {opt(lambda l: lst(text, l), c['field_names'])} = {otext(c['expected_column_name'])}")
    t = tests["test_is_value_pool_entry"]
    for c in cases(env, t):
        out.example(t, f"is_value_pool_entry {otext(c['value'])} = {boolean(c['expected_is_value_pool_entry'])}")
    t = tests["test_is_segment_group"]
    for c in cases(env, t):
        out.example(t, f"is_segment_group {otext(c['value'])} = {boolean(c['expected_is_segment_group'])}")
    t = tests["test_code_description_separation"]
    for c in cases(env, t):
        out.example(t, f"separate_value_pool_entry_and_name {otext(c['csv_code'])} {otext(c['csv_beschreibung'])} = ({otext(c['expected_code'])}, {otext(c['expected_beschreibung'])})")
    t = tests["test_merging_of_section_only_lines"]
    for c in cases(env, t):
        out.example(t, f"match merge_section_only_lines {lst(row, c['input_lines'])} with Ok l => list_eqb same_dict l {lst(row, c['expected_lines'])} | Raise _ => false end = true")
    t = tests["test_extract_bedingungen"]
    for c in cases(env, t):
        out.example(t, f"extract_bedingungen {otext(c['candidate'])} = " + "[" + "; ".join(f"({text(k)}, {text(v)})" for k, v in c["expected"].items()) + "]")
    out.save()


def test_csv_file():
    env, tests = module("test_ahb_csv_reader.py")
    out = Output("T_Csv11042", "test_ahb_csv_reader.py", "PyBase PyStr M_Components M_Ahb M_CsvReader M_JsonText M_CsvText")
    content = (TESTS / "ahbs/FV2204/UTILMD/11042.csv").read_bytes()
    lines = content.decode("utf-8").split("\r\n")
    assert lines[-1] == "" and all("\n" not in x and "\r" not in x for x in lines)
    out.text += "(** tests/unit_tests/ahbs/FV2204/UTILMD/11042.csv; its lines end with carriage return and line feed *)\n"
    out.text += "Definition csv_bytes : list N := flat_map (fun l => bytes_of l ++ [13; 10]%N) [\n" + ";\n".join('"' + x.replace('"', '""') + '"' for x in lines[:-1]) + "]%string.\n"
    out.text += "(** csv.field_size_limit() *)\nDefinition read := read_csv_file (ch \",\") 131072%N decode_utf8 None N.of_nat csv_bytes.\n"
    t = tests["test_csv_file_reading_11042"]
    out.example(t, '''match read with
  | Raise _ => False
  | Ok (p, r) =>
      List.length (rd_rows r) = 844
      /\\ existsb (fun l => ostr_eqb (al_section l) (Some (u "Korrespondenzanschrift des Kunden des Messstellenbetreibers"))) (rd_rows r) = true
      /\\ match rd_rows r with l :: _ => al_segment l = Some (u "UNH") /\\ al_expression l = Some (u "Muss") | [] => False end
      /\\ match rev (rd_rows r) with
         | l :: _ => al_segment l = Some (u "UNT") /\\ al_element l = Some (u "0062") /\\ al_name l = Some (u "Nachrichten-Referenznummer") /\\ al_expression l = Some (u "X")
         | [] => False
         end
      /\\ match reader_to_flat_ahb (p, r) with
         | Ok a => Nat.ltb (List.length (fa_lines a)) (List.length (rd_rows r)) = true
                   /\\ get_segment_groups a = None :: map (fun k => Some (u k)) ["SG2"; "SG3"; "SG4"; "SG5"; "SG6"; "SG8"; "SG9"; "SG10"; "SG12"]%string
                   /\\ forallb (fun l => match al_index l with Some _ => true | None => false end) (fa_lines a) = true
         | Raise _ => False
         end
  end''')
    t = tests["test_extract_bedingungen_from_csv"]
    expected = []
    for s in t.body:
        if isinstance(s, ast.Assert):
            expected.append((s.test.left.slice.value, s.test.comparators[0].value))
    out.example(t, "match read with Raise _ => False | Ok (p, r) => " + " /\\ ".join(f"dict_get {text(k)} (rd_bedingungen r) = Some {text(v)}" for k, v in expected) + " end")
    t = tests["test_is_parsable"]
    out.example(t, "check_file_can_be_parsed_as_ahb_csv 131072%N N.of_nat csv_bytes = Ok tt")
    out.save()


XML = """(** no names beyond ASCII, the declarations of the tests, no document types, no namespaces *)
Definition no_high : char -> bool := fun _ => false.
(** the declarations of the tests are accepted *)
Definition any_declaration : pystr -> bool := fun _ => true.
(** there are no document type declarations in the tests *)
Definition no_doctype : pystr -> result element := fun _ => Raise ExpatError.
(** etree.fromstring *)
Definition fromstring : pystr -> result element := scan_document no_high no_high any_declaration no_doctype.

"""


def test_xml():
    env, tests = module("test_ahb_location_as_xml.py")
    out = Output("T_LocationXml", "test_ahb_location_as_xml.py", "PyBase PyStr M_Navigation M_Xml M_LocationXml M_XmlText", XML)
    t = tests["test_xml_roundtrip"]
    for c in cases(env, t):
        x = location(c["location"])
        out.example(t, f"(let* e := to_xml_element {x} in from_xml_element e) = Ok {x}")
    t = tests["test_xml_roundtrip_list"]
    for c in cases(env, t):
        x = lst(location, c["locations"])
        out.example(t, f"(let* e := to_xml_elements {x} in from_xml_elements e) = Ok {x}")
    t = tests["test_element_to_locations"]
    for c in cases(env, t):
        out.example(t, f"(let* e := fromstring {text(c['xml_str'].strip())} in from_xml_elements e) = Ok {lst(location, c['expected'])}")
    out.save()

    env, tests = module("test_etree_element_helpers.py")
    out = Output("T_ElementHelpers", "test_etree_element_helpers.py", "PyBase PyStr M_Xml M_MigXml M_XmlText", XML)
    preamble = '<?xml version="1.0"?>'
    for name, f in (("test_get_segment_group_key_or_none", "get_segment_group_key_or_none"), ("test_get_ahb_name_or_none", "get_ahb_name_or_none")):
        for c in cases(env, tests[name]):
            out.example(tests[name], f"(let* e := fromstring {text(preamble + c['xml_string'])} in Ok ({f} e)) = Ok {otext(c['expected'])}")
    t = tests["test_get_nested_qualifier"]
    for c in cases(env, t):
        out.example(t, f"(let* e := fromstring {text(preamble + c['xml_string'])} in get_nested_qualifiers {text(c['ref_or_key'])} e) = Ok {opt(lambda l: lst(text, l), c['expected'])}")
    out.save()

    env, tests = module("test_mig_xml_reader_mwe.py")
    out = Output("T_MigXml", "test_mig_xml_reader_mwe.py", "PyBase PyStr M_Components M_Navigation M_Xml M_MigXml M_XmlText M_MigFile", XML + """(** MigXmlReader(xml_string) *)
Definition reader : pystr -> result MigXmlReader :=
  fun s => MigXmlReader_init no_high no_high any_declaration no_doctype (fun _ => Raise XMLSyntaxError) (fun _ => false) (fun _ => false) (fun _ => Raise OSError) (InitStr s).

""")
    t = tests["test_get_edifact_format"]
    for c in cases(env, t):
        out.example(t, f"(let* r := reader {text(c['xml_string'])} in Ok (get_format_name r)) = Ok {text(c['expected_format'])}")
    t = tests["test_element_to_edifact_stack"]
    for c in cases(env, t):
        out.example(t, f"(let* r := reader {text(c['xml_string'])} in element_to_edifact_stack r {position(c['xml_string'], c['element_xpath'])} {boolean(c['use_sanitized'])}) = Ok {stack(c['expected_result'])}")
    t = tests["test_get_segment_group_element"]
    for c in cases(env, t):
        out.example(t, f"(let* r := reader {text(c['xml_string'])} in get_element r {location(c['ahb_location'])}) = Ok {position(c['xml_string'], c['expected_result_xpath'])}")
    out.save()

    _, tests = module("test_mig_xml_reader_real_data.py")
    out = Output("T_MigFiles", "test_mig_xml_reader_real_data.py", "PyBase PyStr M_JsonText M_Xml M_MigXml M_XmlText M_MigFile", XML + """(** the names of the formats that occur *)
Definition formats : list pystr := [u "UTILMD"; u "MSCONS"; u "REQOTE"].
(** the document in a file *)
Definition document (b : list N) : result element :=
  lxml_parse no_high no_high any_declaration no_doctype (fun _ => Raise XMLSyntaxError) (fun _ => false) decode_utf8 (Some b).

""")
    t = tests["test_is_parsable"]
    for path in sorted(TESTS.glob("migs/*/template_xmls/*.xml")):
        name = "file_" + path.parent.parent.name + "_" + path.stem
        content = path.read_text(encoding="utf-8")
        parts = "; ".join('"' + x.replace('"', '""') + '"' for x in content.split("\n"))
        out.text += f"(** {path.relative_to(REPO)}, line by line *)\nDefinition {name} : list N := removelast (flat_map (fun l => bytes_of l ++ [10%N]) [{parts}]%string).\n"
        out.example(t, f"check_file_can_be_parsed_as_mig_xml no_high no_high any_declaration no_doctype (fun _ => Raise XMLSyntaxError) (fun _ => false) (fun _ => false) decode_utf8 formats (Some {name}) = Ok tt")
        out.example(t, f"document {name} = Ok {xml_element(ET.fromstring(content))}")
    out.save()

    env, tests = module("test_mig_ahb_name_helpers.py")
    out = Output("T_Names", "test_mig_ahb_name_helpers.py", "PyBase PyStr M_Xml M_MigXml M_XmlText", XML + """(** tree.iter() *)
Fixpoint all_elements (e : element) : list element := match e with Element _ _ _ c => e :: flat_map all_elements c end.
(** the attribute, if there is one, is what make_name_comparable makes of it *)
Definition comparable (key : pystr) (e : element) : bool :=
  match attr key e with None => true | Some v => str_eqb v (make_name_comparable v) end.

""")
    t = tests["test_make_name_comparable"]
    for c in cases(env, t):
        out.example(t, f"make_name_comparable {text(c['x'])} = {text(c['expected_result'])}")
    t = tests["test_are_similar_names"]
    for c in cases(env, t):
        out.example(t, f"are_similar_names {otext(c['x'])} {otext(c['y'])} = {boolean(c['expected_result'])}")
    t = tests["test_make_tree_names_comparable"]
    out.example(t, f"(let* e := fromstring {text(t.body[0].value.value)} in Ok (forallb (fun f => comparable (u \"name\") f && comparable (u \"ahbName\") f)%bool (all_elements (make_tree_names_comparable e)))) = Ok true")
    out.save()


def test_maus():
    env, tests = module("test_maus.py")
    out = Output("T_Matching", "test_maus.py", "PyBase PyStr M_Components M_Ahb M_Navigation M_Matching")
    for name in ("test_data_element_merging", "test_nest_segment_groups_into_each_other"):
        for c in cases(env, tests[name]):
            out.example(tests[name], f"merge_lines_with_same_data_element {lst(line, c['ahb_lines'])} (Some []) = Ok {data_element(c['expected_data_element'])}")
    t = tests["test_data_element_value_error"]
    for c in cases(env, t):
        out.example(t, f"merge_lines_with_same_data_element {lst(line, c['ahb_lines'])} (Some []) = Raise ValueError")
    out.save()


def test_misc():
    env, tests = module("test_division_helper.py")
    out = Output("T_Division", "test_division_helper.py", "PyBase PyStr M_Misc")
    for name, arg, f in (("test_is_strom_field", "expected_is_strom", "is_electricity_name"), ("test_is_gas_field", "expected_is_gas", "is_gas_name")):
        for c in cases(env, tests[name]):
            out.example(tests[name], f"{f} {text(c['field_name'])} = {opt(boolean, c[arg])}")
    t = tests["test_get_division"]
    for c in cases(env, t):
        d = c["expected_division"]
        out.example(t, f"get_division {otext(c['field_name'])} = " + ("None" if d is None else f"Some {str(d).rsplit('.', maxsplit=1)[-1]}"))
    out.save()
    env, tests = module("test_edifact_enums.py")
    out = Output("T_Edifact", "test_edifact_enums.py", "PyBase PyStr M_Misc")
    t = tests["test_is_boilerplate_segment"]
    for c in cases(env, t):
        out.example(t, f"is_edifact_boilerplate {otext(c['segment_code'])} = {boolean(c['expected_is_boilerplate'])}")
    out.save()
    _, tests = module("test_tree_to_sgh.py")
    out = Output("T_Tree", "test_tree_to_sgh.py", "PyBase PyStr M_Tree L_ReFirst")
    content = (TESTS / "migs/FV2210/segment_group_hierarchies/UTILTS1.1a.tree").read_text(encoding="utf-8")
    out.text += f"(** tests/unit_tests/migs/FV2210/segment_group_hierarchies/UTILTS1.1a.tree *)\nDefinition file : node := File (bytes_of \"{content}\").\n"
    proof = "rewrite read_tree_by_first. vm_compute. reflexivity."
    out.example(tests["test_read_tree"], "is_ok (read_tree (TreePath (Some file))) = true", proof)
    proof = "unfold check_file_can_be_parsed_as_tree. " + proof
    out.example(tests["test_check_file_can_be_parsed_as_tree"], "check_file_can_be_parsed_as_tree (Some file) = Ok tt", proof)
    proof = "lazy -[check_file_can_be_parsed_as_tree file]. " + proof
    out.example(tests["test_check_youngest_tree_is_parseable"], "check_youngest_tree_is_parseable (Some (Directory [(u \"UTILTS1.1a.tree\", file)])) = Ok tt", proof)
    out.example(tests["test_get_edifact_format_error"], "read_tree TreeOther = Raise ValueError")
    out.save()


if __name__ == "__main__":
    for f in (test_navigation, test_mig, test_components, test_ahb, test_searching, test_csv, test_csv_file, test_xml, test_maus, test_misc):
        f()
