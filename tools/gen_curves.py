"""Writes rocq/theories/Model/Curves.v from the text of /repo/ecc/curves.py."""
import sys, re
sys.path.insert(0, '/verif/tools')
from curves_text import classes
def value(v):
    t = v.replace(' ', '')
    if t == 'None': return 'VNone'
    if t[0] in '"\'':  return 'VStr "%s"' % t[1:-1]
    if t[0] == '(':    return 'VTuple [%s]' % '; '.join(t[1:-1].split(','))
    m = re.match(r'^(-?)(0x[0-9a-fA-F]+|\d+)L?$', t)
    if m: return 'VInt (-%s)' % m.group(2) if m.group(1) else 'VInt %s' % m.group(2)
    m = re.match(r'^p-(\d+)$', t)
    if m: return 'VInt (p - %s)' % m.group(1)
    m = re.match(r'^2\*\*(\d+)([+-])(\d+)$', t)
    if m: return 'VInt (2 ^ %s %s %s)' % m.groups()
    raise SystemExit(v)
cs = classes()
out = ['''(** ecc/curves.py: the built-in curves.  Generated by tools/gen_curves.py from the text of the file. *)
From Coq Require Import ZArith List Bool String Ascii.
From Verif Require Import Model.Py Model.Ecc.
Import ListNotations.
Local Open Scope Z_scope.
Local Open Scope string_scope.

(** Values of class attributes. *)
Inductive attr_value := VInt (n : Z) | VStr (s : string) | VTuple (l : list Z) | VNone.
(** A class statement: its name, its base class and the assignments of its body, in order. *)
Record curve_class := CurveClass { cls_name : string; cls_base : string; cls_attrs : list (string * attr_value) }.
''']
for name, base, line, attrs in cs:
    last = attrs[-1][2]
    out.append('(** ecc/curves.py:%d-%d *)' % (line, last))
    body, usesp = [], any(value(v).startswith('VInt (p') for _, v, _ in attrs)
    for a, v, _ in attrs:
        x = value(v)
        if usesp and a == 'p': pdef = x[5:]; x = 'VInt p'
        body.append('    ("%s", %s)' % (a, x))
    out.append('Definition cls_%s : curve_class :=' % name)
    if usesp: out.append('  let p := %s in' % pdef)
    out.append('  CurveClass "%s" "%s" [\n%s].\n' % (name, base, ';\n'.join(body)))
out.append('(** The classes of the module, in the order of the file. *)')
out.append('Definition module_classes : list curve_class :=\n  [' + ';\n   '.join('cls_' + c[0] for c in cs) + '].\n')
out.append('''(** The last assignment to an attribute in a class body wins. *)
Fixpoint body_attr (l : list (string * attr_value)) (a : string) : option attr_value :=
  match l with
  | [] => None
  | (b, v) :: r => match body_attr r a with Some w => Some w | None => if String.eqb a b then Some v else None end
  end.
(** Attributes of the base classes: KoblitzCurveFp.a, ecc/ecc.py:133, and EdwardsCurveFp.a, ecc/ecc.py:193. *)
Definition base_attr (base a : string) : option attr_value :=
  if String.eqb a "a" then
    if String.eqb base "KoblitzCurveFp" then Some (VInt 0)
    else if String.eqb base "EdwardsCurveFp" then Some (VInt 1) else None
  else None.
(** Attribute lookup: the class, then its base, which is a class of the module or of ecc.py.
    The fuel is the depth of the inheritance. *)
Fixpoint class_attr (fuel : nat) (c : curve_class) (a : string) : option attr_value :=
  match body_attr (cls_attrs c) a with
  | Some v => Some v
  | None =>
      match find (fun d => String.eqb (cls_name d) (cls_base c)) module_classes, fuel with
      | Some d, S f => class_attr f d a
      | _, _ => base_attr (cls_base c) a
      end
  end.
Definition get_attr (c : curve_class) (a : string) : res attr_value :=
  match class_attr 2 c a with Some v => Ok v | None => Raise AttributeError end.
Definition int_attr (c : curve_class) (a : string) : res Z :=
  do v <- get_attr c a; match v with VInt n => Ok n | _ => Raise TypeError end.
Definition curve_id (c : curve_class) : res string :=
  do v <- get_attr c "curveId"; match v with VStr s => Ok s | _ => Raise TypeError end.

(** get_all_classes, ecc/curves.py:742-746: inspect.getmembers sorts by name. *)
Fixpoint str_leb (s t : string) : bool :=
  match s, t with
  | EmptyString, _ => true
  | String _ _, EmptyString => false
  | String a s', String b t' =>
      if (Ascii.N_of_ascii a <? Ascii.N_of_ascii b)%N then true
      else if (Ascii.N_of_ascii b <? Ascii.N_of_ascii a)%N then false else str_leb s' t'
  end.
Fixpoint insert_class (c : curve_class) (l : list curve_class) : list curve_class :=
  match l with
  | [] => [c]
  | d :: r => if str_leb (cls_name c) (cls_name d) then c :: l else d :: insert_class c r
  end.
Definition get_all_classes : list curve_class := fold_right insert_class [] module_classes.
(** The lists by the name of the first base class, ecc/curves.py:748-766 *)
Definition classes_with_base (b : string) : list curve_class :=
  filter (fun c => String.eqb (cls_base c) b) get_all_classes.
Definition smallWeierstrassCurves := classes_with_base "SmallWeierstrassCurveFp".
Definition koblitzCurves := classes_with_base "KoblitzCurveFp".
Definition twistedEdwardsCurves := classes_with_base "TwistedEdwardsCurveFp".
Definition edwardsCurves := classes_with_base "EdwardsCurveFp".
Definition montgomeryCurves := classes_with_base "MontgomeryCurveFp".
(** ecc/curves.py:768 *)
Definition allCurves : list curve_class :=
  (smallWeierstrassCurves ++ koblitzCurves ++ twistedEdwardsCurves ++ edwardsCurves ++ montgomeryCurves)%list.

(** The parameters used by the methods of SmallWeierstrassCurveFp *)
Definition class_curve (c : curve_class) : res curve :=
  do p <- int_attr c "p"; do a <- int_attr c "a"; do b <- int_attr c "b"; do n <- int_attr c "n";
  Ok (Curve p a b n).
(** EllipticCurve.generator, ecc/ellipticcurve.py:32-34 *)
Definition generator (c : curve_class) : res point :=
  do E <- class_curve c; do x <- int_attr c "xG"; do y <- int_attr c "yG"; mk_point E x y.
''')
open('/verif/rocq/theories/Model/Curves.v', 'w').write('\n'.join(out))
