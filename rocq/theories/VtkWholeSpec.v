(** * Whole conversions to VTK: what is expected of a command. *)
From Coq Require Import ZArith List Bool String.
From Verif Require Import Py IndexList Conn GmshSpec GroupFacts GmshIc3Spec.
Local Open Scope Z_scope.

(** A point, multiplied by the scale if there is one. *)
Definition place (mul : Z -> Z -> Z) (s : option (Z * Z * Z)) (a b c : Z) : list Z :=
  match s with None => [a; b; c] | Some (sx, sy, sz) => [mul a sx; mul b sy; mul c sz] end.
Definition places (mul : Z -> Z -> Z) (s : option (Z * Z * Z)) (x y z : list Z) : list (list Z) :=
  List.map (fun '(a, (b, c)) => place mul s a b c) (combine x (combine y z)).

(** The elements of a file, one type after the other in the order of the first of each. *)
Definition by_type (l : list felt) : list (string * list Z) :=
  List.map (fun e => (felt_name e, nodes0 e)) (flat_map (fun t => having String.eqb felt_name t l) (first_seen String.eqb (List.map felt_name l))).

(** The hexahedra of [n] layers over the quadrangles of [l], [nnode] being the number of nodes of a plane. *)
Definition stack (nnode n : Z) (l : list felt) : list (string * list Z) :=
  flat_map (fun i => List.map (fun e => ("hexa8"%string, List.map (fun v => v + i * nnode) (nodes0 e) ++ List.map (fun v => v + (i + 1) * nnode) (nodes0 e))) l) (zrange 0 n).
