"""Transcribe the parameter tables of the project's tests to Coq examples about the model.

The tests are read as text (syntax trees); nothing of the project is imported or run. For each case of a table
the model is evaluated on the case's arguments and compared with the value the test expects. Writes
rocq/theories/Tests/{PartitionerTests,ViewTests,CornerTests,RotateTests}.v.
"""
import ast
import os

TESTS = "/repo/tests"
OUT = os.path.join(os.path.dirname(os.path.abspath(__file__)), "..", "rocq", "theories", "Tests")

CONSTS = {
    "X_DIM": "x", "Y_DIM": "y", "Z_DIM": "z", "X_INTERFACE_DIM": "x_interface", "Y_INTERFACE_DIM": "y_interface",
    "Z_INTERFACE_DIM": "z_interface", "TILE_DIM": "tile",
}
CONSTS["X_DIMS"] = ("x", "x_interface")
CONSTS["Y_DIMS"] = ("y", "y_interface")
CONSTS["Z_DIMS"] = ("z", "z_interface")
BOUNDARIES = ["NORTH", "SOUTH", "WEST", "EAST", "NORTHWEST", "NORTHEAST", "SOUTHWEST", "SOUTHEAST"]


class Name(str):
    """A name of a Coq constant, as opposed to a string."""


class Arr:
    def __init__(self, shape, values):
        self.shape, self.values = list(shape), list(values)

    @staticmethod
    def of(x):
        if isinstance(x, list):
            parts = [Arr.of(y) for y in x]
            return Arr([len(parts)] + parts[0].shape, [v for p in parts for v in p.values])
        return Arr([], [int(x)])

    def transpose(self):
        if len(self.shape) < 2:
            return self
        h, w = self.shape
        return Arr([w, h], [self.values[r * w + c] for c in range(w) for r in range(h)])

    def times(self, k):
        return Arr(self.shape, [k * v for v in self.values])

    def index(self, entries):
        """entries: None, or slices of one dimension at a time"""
        assert len(self.shape) == 1
        values, shape = self.values, []
        for e in entries:
            if e is None:
                shape.append(1)
            else:
                values = values[e]
                shape.append(len(values))
        return Arr(shape, values)


def prod(shape):
    n = 1
    for s in shape:
        n *= s
    return n


def ev(node):
    if isinstance(node, ast.Constant):
        return node.value
    if isinstance(node, ast.Tuple):
        return tuple(ev(x) for x in node.elts)
    if isinstance(node, ast.List):
        return [ev(x) for x in node.elts]
    if isinstance(node, ast.UnaryOp) and isinstance(node.op, ast.USub):
        return -ev(node.operand)
    if isinstance(node, ast.BinOp):
        a, b = ev(node.left), ev(node.right)
        if isinstance(node.op, ast.Mult):
            return a.times(b) if isinstance(a, Arr) else a * b
        if isinstance(node.op, ast.Add):
            return a + b
    if isinstance(node, ast.Attribute):
        if node.attr == "T":
            return ev(node.value).transpose()
        if node.attr in CONSTS:
            return CONSTS[node.attr]
        if node.attr in BOUNDARIES:
            return Name(node.attr)
    if isinstance(node, ast.Slice):
        f = lambda x: None if x is None else ev(x)
        return slice(f(node.lower), f(node.upper), f(node.step))
    if isinstance(node, ast.Subscript):
        return ev(node.value).index(ev(node.slice))
    if isinstance(node, ast.Call):
        f = node.func.attr if isinstance(node.func, ast.Attribute) else node.func.id
        args = [ev(x) for x in node.args]
        if f == "param":
            return tuple(args)
        if f == "slice":
            return slice(*args)
        if f == "array":
            return Arr.of(args[0])
        if f in ("zeros", "ones"):
            return Arr(args[0], [int(f == "ones")] * prod(args[0]))
        if f == "arange":
            return Arr([args[0]], range(args[0]))
        if f == "Quantity":
            return dict({k.arg: ev(k.value) for k in node.keywords}, data=args[0])
    raise NotImplementedError(ast.dump(node))


def tables(path):
    """function name -> (argument names, list of cases), for each function with one literal table"""
    out = {}
    for node in ast.parse(open(os.path.join(TESTS, path)).read()).body:
        if not isinstance(node, ast.FunctionDef):
            continue
        for d in node.decorator_list:
            if isinstance(d, ast.Call) and getattr(d.func, "attr", "") == "parametrize":
                try:
                    names = [x.strip() for x in d.args[0].value.split(",")]
                    out.setdefault(node.name, []).append((names, ev(d.args[1]), node.lineno))
                except NotImplementedError:
                    pass
    return out


def z(n):
    return str(n) if n >= 0 else "(%d)" % n


def zs(l):
    return "[" + "; ".join(z(x) for x in l) + "]"


def ss(l):
    return "[" + "; ".join('"%s"' % x for x in l) + "]"


def entry(e):
    if isinstance(e, slice):
        f = lambda x: "None" if x is None else "(Some %s)" % z(x)
        return "ISlice %s %s %s" % (f(e.start), f(e.stop), f(e.step))
    return "IInt %s" % z(e)


def entries(es):
    return "[" + "; ".join(entry(e) for e in es) + "]"


def arr(a):
    return "(ARR %s %s)" % (zs(a.shape), zs(a.values))


def pairs(es):
    return "[" + "; ".join("(%s, %s)" % (z(e.start), z(e.stop)) for e in es) + "]"


def layout(l):
    return "(%d, %d)" % l


class File:
    def __init__(self, name, comment, imports):
        self.name = name
        self.lines = ["(** %s\n    Written by tools/tests.py. *)" % comment, "From Verif.Base Require Import Base.",
                      "From Verif.Model Require Import %s." % imports, "From Verif.Tests Require Import Tables.",
                      "Local Open Scope string_scope.", "Local Open Scope Z_scope.", ""]
        self.count = 0

    def case(self, source, line, name, statement):
        self.lines.append("(** %s %d *)" % (source, line))
        self.lines.append("Example %s : %s.\nProof. vm_compute. reflexivity. Qed." % (name, statement))
        self.count += 1

    def close(self):
        with open(os.path.join(OUT, self.name + ".v"), "w") as f:
            f.write("\n".join(self.lines) + "\n")
        print(self.name, self.count)


def partitioner():
    f = File("PartitionerTests", "The tables of tests/test_partitioner.py and tests/test_partitioner_boundaries.py, evaluated in the model.",
             "Consts Numpy Partitioner")
    src = "tests/test_partitioner.py"
    rows = []
    for per in (1, 4):  # lines 10-19
        rows += [(r, 6 * per, r // per) for r in range(6 * per)]
    every(f, src, "test_get_tile_number", 26, "(Z * Z * Z)", "fun '(rank, total, tile) => get_tile_number rank total = Ok (tile + 1)",
          ["(%d, %d, %d)" % r for r in rows])
    every(f, src, "test_get_tile_index", 35, "(Z * Z * Z)", "fun '(rank, total, tile) => get_tile_index rank total = Ok tile",
          ["(%d, %d, %d)" % r for r in rows])
    rows = []
    for lay in ((1, 1), (1, 2), (2, 2), (2, 3)):  # lines 49-57
        rank = 0
        for tile in range(6):
            for y in range(lay[0]):
                for x in range(lay[1]):
                    rows.append((rank,) + lay + (y, x))
                    rank += 1
    every(f, src, "test_subtile_index", 64, "(Z * (Z * Z) * (Z * Z))", "fun '(rank, layout, index) => tile_subtile_index layout rank = index",
          ["(%d, (%d, %d), (%d, %d))" % r for r in rows])
    t = tables("test_partitioner.py")
    (_, rows, line), = t["test_tile_extent_from_rank_metadata"]
    every(f, src, "test_tile_extent_from_rank_metadata", line, "(list Z * list string * (Z * Z) * list Z)",
          "fun '(extent, dims, layout, tile) => tile_extent_from_rank_metadata dims extent layout = tile",
          ["(%s, %s, %s, %s)" % (zs(e), ss(d), layout(l), zs(o)) for e, d, l, o in rows])
    (_, rows, line), = t["test_subtile_slice"]
    every(f, src, "test_subtile_slice", line, "(list string * list Z * (Z * Z) * (Z * Z) * list (Z * Z) * bool)",
          "fun '(dims, extent, layout, index, slices, overlap) => subtile_slice dims extent layout index overlap = Ok slices",
          ["(%s, %s, %s, %s, %s, %s)" % (ss(d), zs(e), layout(l), layout(i), pairs(s), str(o).lower()) for d, e, l, i, s, o in rows])
    path = "test_partitioner_boundaries.py"
    src = "tests/" + path
    t = tables(path)
    for func, lay, b in [("2_by_2_left_edge", 2, "WEST"), ("1_by_1_left_edge", 1, "WEST"), ("2_by_2_top_edge", 2, "NORTH"), ("1_by_1_top_edge", 1, "NORTH"),
                         ("2_by_2_bottom_edge", 2, "SOUTH"), ("1_by_1_bottom_edge", 1, "SOUTH"), ("2_by_2_right_edge", 2, "EAST"), ("1_by_1_right_edge", 1, "EAST"),
                         ("2_by_2_top_left_corner", 2, "NORTHWEST"), ("2_by_2_top_right_corner", 2, "NORTHEAST"),
                         ("2_by_2_bottom_left_corner", 2, "SOUTHWEST"), ("2_by_2_bottom_right_corner", 2, "SOUTHEAST")]:
        (names, rows, line), = t["test_" + func]
        assert names == ["from_rank", "to_rank", "n_clockwise_rotations"], names
        every(f, src, "test_" + func, line, "(Z * option (Z * Z))",
              "fun '(from, expected) => shown_boundary (cs_boundary (%d, %d) %s from) = Ok (option_map (fun tr => (%s, from, fst tr, snd tr)) expected)" % (lay, lay, b, b),
              ["(%d, %s)" % (a, "None" if c is None else "Some (%d, %d)" % (c, n)) for a, c, n in rows])
    for func, b in [("top_left", "NORTHWEST"), ("top_right", "NORTHEAST"), ("bottom_left", "SOUTHWEST"), ("bottom_right", "SOUTHEAST")]:
        name = "test_1_by_1_%s_corner" % func
        (names, rows, line), = t[name]
        every(f, src, name, line, "Z", "fun from => cs_boundary (1, 1) %s from = Ok None" % b, [z(r) for r in rows])
    (names, rows, line), = t["test_rotate_subtile_rank"]
    every(f, src, "test_rotate_subtile_rank", line, "(Z * (Z * Z) * Z * Z)", "fun '(rank, layout, n, new) => rotate_subtile_rank rank layout n = Ok new",
          ["(%d, %s, %d, %d)" % (r, layout(l), n, o) for r, l, n, o in rows])
    (names, rows, line), = t["test_tile_boundary"]
    every(f, src, "test_tile_boundary", line, "((Z * Z) * btype * Z * Z)",
          "fun '(layout, b, from, to) => let e := tp_boundary layout b from in (b_from e, b_to e, b_rot e) = (from, to, 0)",
          ["(%s, %s, %d, %d)" % (layout(l), b, r, o) for l, b, r, o in rows])
    (names, rows, line), = t["test_3_by_3_difficult_cases"]
    every(f, src, "test_3_by_3_difficult_cases", line, "(btype * Z * Z * Z)",
          "fun '(b, from, to, n) => shown_boundary (cs_boundary (3, 3) b from) = Ok (Some (b, from, to, n))",
          ["(%s, %d, %d, %d)" % r for r in rows])
    # test_boundary_returns_correct_boundary_type, lines 492-497
    every(f, src, "test_boundary_returns_correct_boundary_type", 492, "btype",
          "fun b => rmap (option_map b_type) (cs_boundary (3, 3) b 4) = Ok (Some b)", BOUNDARIES)
    for func, line, order in [("edge", 530, "[WEST; NORTH; EAST; SOUTH]"), ("corner", 555, "[NORTHWEST; NORTHEAST; SOUTHEAST; SOUTHWEST]")]:
        every(f, src, "test_%s_boundaries_pair" % func, line, "(Z * Z)",
              "fun layout => forallb (fun rank => forallb (fun b => pairs_back %s layout b rank) %s) (zrange (total_ranks layout)) = true" % (order, order),
              ["(1, 1)", "(2, 2)", "(4, 4)"])
    f.close()


def every(f, source, func, line, ty, pred, rows):
    f.lines.append("(** %s %d *)" % (source, line))
    f.lines.append("Definition table_%s : list %s :=\n  [%s]." % (func, ty, "; ".join(rows)))
    f.lines.append("Example %s : Forall (%s) table_%s.\nProof. table. Qed." % (func, pred, func))
    f.count += len(rows)


def quantity(q):
    return "(mkQ %s %s \"%s\" %s %s)" % (arr(q["data"]), ss(q["dims"]), q.get("units", ""), zs(q["origin"]), zs(q["extent"]))


def flipped(q):
    return {"data": q["data"].transpose(), "dims": q["dims"][::-1], "units": q["units"], "origin": q["origin"][::-1], "extent": q["extent"][::-1]}


def equal(value, ref):
    """numpy.testing.assert_array_equal: a number is compared with every element"""
    if isinstance(ref, Arr):
        return "rmap shown (%s) = Ok (%s, %s)" % (value, zs(ref.shape), zs(ref.values))
    return "rmap (all_equal %s) (%s) = Ok true" % (z(ref), value)


def views():
    path = "quantity/test_view.py"
    f = File("ViewTests", "The tables of tests/quantity/test_view.py, tests/quantity/test_boundary.py and tests/quantity/test_quantity.py, evaluated in the model.",
             "Consts Numpy Quantity")
    t = tables(path)
    for func, kind in [("southwest", "(VCorner SOUTHWEST)"), ("southeast", "(VCorner SOUTHEAST)"), ("northwest", "(VCorner NORTHWEST)"),
                       ("northeast", "(VCorner NORTHEAST)"), ("interior", "VInterior")]:
        (names, rows, line), = t["test_" + func]
        assert names == ["quantity", "view_slice", "reference"]
        for i, (q, es, ref) in enumerate(rows):
            f.case("tests/" + path, line, "test_%s_%d" % (func, i), equal("corner_get %s %s (PTuple %s)" % (quantity(q), kind, entries(es)), ref))
            if len(es) == len(q["dims"]):
                rt = ref.transpose() if isinstance(ref, Arr) else ref
                f.case("tests/" + path, line, "test_%s_%d_transposed" % (func, i),
                       equal("corner_get %s %s (PTuple %s)" % (quantity(flipped(q)), kind, entries(es[::-1])), rt))
    path = "quantity/test_boundary.py"
    t = tables(path)
    (names, rows, line), = t["test_shift_boundary_slice"]
    for i, (dim, o, e, b, s, r) in enumerate(rows):
        f.case("tests/" + path, line, "test_shift_boundary_slice_%d" % i,
               'shift_boundary_slice "%s" %d %d (VCorner %s) (%s) = Ok (%s)' % (dim, o, e, b, entry(s), entry(r)))
    path = "quantity/test_quantity.py"
    t = tables(path)
    (names, rows, line), = t["test_shift_slice"]
    for i, (s, shift, extent, r) in enumerate(rows):
        g = lambda x: "None" if x is None else "(Some %s)" % z(x)
        f.case("tests/" + path, line, "test_shift_slice_%d" % i,
               "(shift_index %s %s %s, shift_index %s %s %s) = (%s, %s)" % (g(s.start), z(shift), z(extent), g(s.stop), z(shift), z(extent), g(r.start), g(r.stop)))
    f.close()


def corners():
    path = "quantity/test_corners.py"
    f = File("CornerTests", "The table of test_fill_corners in tests/quantity/test_corners.py, evaluated in the model.", "Consts Numpy Quantity Partitioner Corners")
    (names, rows, line), = tables(path)["test_fill_corners"]
    for i, (q, direction, lay, rank, n_halo, ref) in enumerate(rows):
        f.case("tests/" + path, line, "test_fill_corners_%d" % i,
               'rmap (fun q => shown (q_data q)) (fill_scalar_corners %s "%s" %s %d %d) = Ok (%s, %s)' % (quantity(q), direction, layout(lay), rank, n_halo, zs(ref.shape), zs(ref.values)))
    f.close()


def rotations():
    path = "test_rotate.py"
    f = File("RotateTests", "The tables of tests/test_rotate.py and tests/quantity/test_transpose.py, evaluated in the model.", "Consts Numpy Quantity Partitioner Rotate")
    t = tables(path)
    (names, rows, line), = t["test_rotate_scalar_data"]
    for i, (a, n, dims, ref) in enumerate(rows):
        f.case("tests/" + path, line, "test_rotate_scalar_data_%d" % i,
               equal("rmap (v_read %s) (rotate_scalar_data (v_whole %s) %s %d)" % (arr(a), zs(a.shape), ss(dims), n), ref))
    (names, rows, line), = t["test_rotate_vector_data"]
    for i, ((x, y), n, dims, (rx, ry)) in enumerate(rows):
        f.case("tests/" + path, line, "test_rotate_vector_data_%d" % i,
               "rmap (shown_vector %s %s) (rotate_vector_data (v_whole %s) (v_whole %s) %d %s) = Ok ((%s, %s), (%s, %s))"
               % (arr(x), arr(y), zs(x.shape), zs(y.shape), n, ss(dims), zs(rx.shape), zs(rx.values), zs(ry.shape), zs(ry.values)))
    path = "quantity/test_transpose.py"
    t = tables(path)
    target = lambda d: '(TName "%s")' % d if isinstance(d, str) else "(TAny %s)" % ss(d)
    for names, rows, line in t["test_transpose"]:
        if "initial_dims" not in names:
            continue
        for i, (dims, shape, origin, extent, targets, order) in enumerate(rows):
            f.case("tests/" + path, line, "test_transpose_%d" % i,
                   'transposed_by (COUNT %s) %s %s %s [%s] [%s] = Ok true'
                   % (zs(shape), ss(dims), zs(origin), zs(extent), "; ".join(target(d) for d in targets), "; ".join("%d%%nat" % o for o in order)))
    for names, rows, line in t["test_transpose_invalid_cases"]:
        for i, (dims, shape, origin, extent, targets, order) in enumerate(rows):
            f.case("tests/" + path, line, "test_transpose_invalid_cases_%d" % i,
                   'q_transpose (mkQ (COUNT %s) %s "unit_string" %s %s) [%s] = Err ValueError'
                   % (zs(shape), ss(dims), zs(origin), zs(extent), "; ".join(target(d) for d in targets)))
    f.close()


if __name__ == "__main__":
    partitioner()
    views()
    corners()
    rotations()
