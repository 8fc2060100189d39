"""Generate rocq/theories/Conformance.v from the unit tests and CSV data of /repo.

Each unit test of the form
    result = f(**params); assert_series_equal(df[target].tail(k), result.tail(k))
becomes an Example that runs the binary64 instance of the model on the CSV
columns and compares the last k rows with the expected column with pandas'
default tolerances (rtol 1e-5, atol 1e-8; NaN equals NaN).
"""
import ast
import csv
import sys

REPO = sys.argv[1] if len(sys.argv) > 1 else "/repo"

SIG = {
    # name: (coq function, [(param, kind, default)]) kinds: s series, z int, f float, b bool, o optional int, L labels
    "rsi": [("close", "s"), ("window", "z", 14), ("fillna", "b", False)],
    "tsi": [("close", "s"), ("window_slow", "z", 25), ("window_fast", "z", 13), ("fillna", "b", False)],
    "ultimate_oscillator": [("high", "s"), ("low", "s"), ("close", "s"), ("window1", "z", 7), ("window2", "z", 14), ("window3", "z", 28), ("weight1", "f", 4.0), ("weight2", "f", 2.0), ("weight3", "f", 1.0), ("fillna", "b", False)],
    "stoch": [("high", "s"), ("low", "s"), ("close", "s"), ("window", "z", 14), ("smooth_window", "z", 3), ("fillna", "b", False)],
    "stoch_signal": [("high", "s"), ("low", "s"), ("close", "s"), ("window", "z", 14), ("smooth_window", "z", 3), ("fillna", "b", False)],
    "williams_r": [("high", "s"), ("low", "s"), ("close", "s"), ("lbp", "z", 14), ("fillna", "b", False)],
    "kama": [("close", "s"), ("window", "z", 10), ("pow1", "z", 2), ("pow2", "z", 30), ("fillna", "b", False)],
    "roc": [("close", "s"), ("window", "z", 12), ("fillna", "b", False)],
    "stochrsi": [("close", "s"), ("window", "z", 14), ("smooth1", "z", 3), ("smooth2", "z", 3), ("fillna", "b", False)],
    "wma": [("close", "s"), ("window", "z", 9), ("fillna", "b", False)],
    "cci": [("high", "s"), ("low", "s"), ("close", "s"), ("window", "z", 20), ("constant", "f", 0.015), ("fillna", "b", False)],
    "stc": [("close", "s"), ("window_slow", "z", 50), ("window_fast", "z", 23), ("cycle", "z", 10), ("smooth1", "z", 3), ("smooth2", "z", 3), ("fillna", "b", False)],
    "average_true_range": [("high", "s"), ("low", "s"), ("close", "s"), ("window", "z", 14), ("fillna", "b", False)],
    "ulcer_index": [("close", "s"), ("window", "z", 14), ("fillna", "b", False)],
    "acc_dist_index": [("high", "s"), ("low", "s"), ("close", "s"), ("volume", "s"), ("fillna", "b", False)],
    "on_balance_volume": [("close", "s"), ("volume", "s"), ("fillna", "b", False)],
    "force_index": [("close", "s"), ("volume", "s"), ("window", "z", 13), ("fillna", "b", False)],
    "volume_price_trend": [("close", "s"), ("volume", "s"), ("fillna", "b", False), ("smoothing_factor", "o", None), ("dropnans", "b", False)],
    "money_flow_index": [("high", "s"), ("low", "s"), ("close", "s"), ("volume", "s"), ("window", "z", 14), ("fillna", "b", False)],
    "volume_weighted_average_price": [("high", "s"), ("low", "s"), ("close", "s"), ("volume", "s"), ("window", "z", 14), ("fillna", "b", False)],
}
for n in ("ppo", "ppo_signal", "ppo_hist", "macd", "macd_signal", "macd_diff"):
    SIG[n] = [("close", "s"), ("window_slow", "z", 26), ("window_fast", "z", 12), ("window_sign", "z", 9), ("fillna", "b", False)]
for n in ("pvo", "pvo_signal", "pvo_hist"):
    SIG[n] = [("volume", "s"), ("window_slow", "z", 26), ("window_fast", "z", 12), ("window_sign", "z", 9), ("fillna", "b", False)]
for n in ("adx", "adx_pos", "adx_neg", "vortex_indicator_pos", "vortex_indicator_neg"):
    SIG[n] = [("high", "s"), ("low", "s"), ("close", "s"), ("window", "z", 14), ("fillna", "b", False)]
for n in ("psar_up", "psar_down", "psar_up_indicator", "psar_down_indicator"):
    SIG[n] = [("high", "s"), ("low", "s"), ("close", "s"), ("", "L"), ("step", "f", 0.02), ("max_step", "f", 0.20), ("fillna", "b", False)]
for n in ("mavg", "hband", "lband", "wband", "pband", "hband_indicator", "lband_indicator"):
    SIG["bollinger_" + n] = [("close", "s"), ("window", "z", 20), ("window_dev", "f", 2), ("fillna", "b", False)]
for n in ("mband", "hband", "lband", "wband", "pband", "hband_indicator", "lband_indicator"):
    SIG["keltner_channel_" + n] = [("high", "s"), ("low", "s"), ("close", "s"), ("window", "z", 20), ("window_atr", "z", 10), ("fillna", "b", False), ("original_version", "b", True), ("multiplier", "f", 2)]
for n in ("mband", "hband", "lband", "wband", "pband"):
    SIG["donchian_channel_" + n] = [("high", "s"), ("low", "s"), ("close", "s"), ("window", "z", 20), ("offset", "z", 0), ("fillna", "b", False)]
for n in ("ease_of_movement", "sma_ease_of_movement"):
    SIG[n] = [("high", "s"), ("low", "s"), ("volume", "s"), ("window", "z", 14), ("fillna", "b", False)]
RENAME = {"wma_indicator": "wma"}


def fl(x):
    if x is None or x == "":
        return "nan"
    v = float(x)
    if v != v:
        return "nan"
    h = v.hex()
    return "(-%s)" % h[1:] if h.startswith("-") else h


class Data:
    def __init__(self):
        self.files = {}
        self.cols = {}

    def col(self, fname, col):
        key = (fname, col)
        if key not in self.cols:
            if fname not in self.files:
                with open(f"{REPO}/{fname}", newline="") as f:
                    self.files[fname] = list(csv.DictReader(f))
            vals = [r[col] for r in self.files[fname]]
            self.cols[key] = ("d%03d" % len(self.cols), vals)
        return self.cols[key][0]

    def nrows(self, fname):
        return len(self.files[fname])


def lit(node):
    return ast.literal_eval(node)


def items_of(items):
    d = {}
    for k, x in items:
        if isinstance(x, ast.Subscript):
            d[k] = ("col", lit(x.slice))
        else:
            d[k] = ("lit", lit(x))
    return d


def main():
    data = Data()
    tests = []
    for mod in ("momentum", "trend", "volatility", "volume"):
        tree = ast.parse(open(f"{REPO}/test/unit/{mod}.py").read())
        for cls in tree.body:
            if not isinstance(cls, ast.ClassDef):
                continue
            fname = None
            params = {}
            inds = {}
            for st in cls.body:
                if isinstance(st, ast.Assign) and st.targets[0].id == "_filename":
                    fname = lit(st.value)
            for st in cls.body:
                if isinstance(st, ast.FunctionDef) and st.name == "setUpClass":
                    for a in st.body:
                        if not (isinstance(a, ast.Assign) and isinstance(a.targets[0], ast.Attribute)):
                            continue
                        t = a.targets[0].attr
                        if t.startswith("_params"):
                            v = a.value
                            if isinstance(v, ast.Call):  # dict(...)
                                items = [(k.arg, k.value) for k in v.keywords]
                            else:
                                items = [(lit(k), x) for k, x in zip(v.keys, v.values)]
                            params[t] = items_of(items)
                        elif t.startswith("_indicator"):
                            kw = a.value.keywords[0]
                            inds[t] = kw.value.attr
            for st in cls.body:
                if not (isinstance(st, ast.FunctionDef) and st.name.startswith("test")):
                    continue
                target = None
                fn = None
                par = None
                tail = None
                less = False
                for s in st.body:
                    if isinstance(s, ast.Assign) and s.targets[0].id == "target":
                        target = lit(s.value)
                    elif isinstance(s, ast.Assign) and s.targets[0].id == "result":
                        c = s.value
                        if isinstance(c.func, ast.Name):
                            fn = c.func.id
                            if c.keywords[0].arg is None:
                                par = params[c.keywords[0].value.attr]
                            else:
                                par = items_of([(k.arg, k.value) for k in c.keywords])
                        else:
                            fn = c.func.attr
                            v = c.func.value
                            par = params[v.keywords[0].value.attr if isinstance(v, ast.Call) else inds[v.attr]]
                    elif isinstance(s, ast.Expr) and isinstance(s.value, ast.Call):
                        c = s.value.args[0]
                        # pandas: check_less_precise=True means rtol 0.5e-3
                        less = any(k.arg == "check_less_precise" and lit(k.value) for k in s.value.keywords)
                        if isinstance(c, ast.Call) and c.func.attr == "tail":
                            tail = lit(c.args[0]) if c.args else 5
                if fn is None or target is None:
                    print("skipped", mod, cls.name, st.name, file=sys.stderr)
                    continue
                if tail is None:
                    tail = 100000
                tests.append((mod, cls.name, st.name, st.lineno, fname, fn, par, target, tail, less))
    out = []
    seen = set()
    for mod, cname, tname, line, fname, fn, par, target, tail, less in tests:
        cf = RENAME.get(fn, fn)
        args = []
        # pandas column widths: positional series come from the CSV
        for p in SIG[cf]:
            if p[1] == "L":
                data.col(fname, target)
                args.append("(rangeindex %d)" % data.nrows(fname))
                continue
            if p[0] in par:
                kind, v = par[p[0]]
            else:
                kind, v = "lit", p[2]
            if kind == "col":
                args.append(data.col(fname, v))
            elif p[1] == "z":
                args.append("%d" % v if v >= 0 else "(%d)" % v)
            elif p[1] == "f":
                args.append(fl(v))
            elif p[1] == "b":
                args.append("true" if v else "false")
            elif p[1] == "o":
                args.append("None" if v is None else "(Some %d%%Z)" % v)
        exp = data.col(fname, target)
        n = data.nrows(fname)
        call = f"{cf} {' '.join(args)}"
        key = (call, exp, tail)
        if key in seen:
            continue
        seen.add(key)
        out.append((f"{mod}_{cname}_{tname}", f"test/unit/{mod}.py:{line}", call, exp, min(tail, n), "0.5e-3" if less else "1e-5"))
    w = sys.stdout.write
    w("(** * Conformance: GENERATED by tools/gen_conformance.py from /repo/test.\n\n"
      "    These are tests of the model, not proofs of properties: every distinct\n"
      "    unit test of /repo/test/unit, replayed on the binary64 instance of the\n"
      "    model with the data of /repo/test/data and pandas' default tolerances. *)\n")
    w("From Coq Require Import Floats.\nFrom Verif Require Import Wrapper FloatArith.\n")
    w("Set Warnings \"-inexact-float\".\nLocal Open Scope float_scope.\n\n")
    w("Definition close_to (rtol x e : float) : bool :=\n"
      "  if is_nan x then is_nan e else if is_nan e then false\n"
      "  else (abs (x - e) <=? 1e-8 + rtol * abs e).\n"
      "Definition lastn {B} (k : nat) (l : list B) : list B := skipn (List.length l - k) l.\n"
      "Definition agrees (rtol : float) (k : nat) (r : result (list float)) (e : list float) : bool :=\n"
      "  match r with\n"
      "  | Ok o => (List.length o =? List.length e)%nat\n"
      "            && forallb (fun b => b) (map2 (close_to rtol) (lastn k o) (lastn k e))\n"
      "  | Raise _ => false\n  end.\n"
      "Definition rangeindex (n : nat) : option (list Z) := Some (map Z.of_nat (seq 0 n)).\n\n")
    for (fname, col), (name, vals) in data.cols.items():
        w(f"(* {fname} {col!r} *)\n".replace("*)", "*)"))
        w(f"Definition {name} : list float := [{'; '.join(fl(v) for v in vals)}].\n")
    w("\n")
    for name, src, call, exp, k, rtol in out:
        w(f"(** /repo/{src} *)\n")
        w(f"Example {name} : agrees {rtol} {k} ({call}) {exp} = true.\nProof. vm_compute. reflexivity. Qed.\n")


main()
