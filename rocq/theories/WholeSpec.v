(** * Whole conversions: what is expected of a command. *)
From Coq Require Import ZArith List Bool String DecimalString Permutation.
From Verif Require Import Py Files FilesSpec Race Cli Gmsh GmshSpec GmshIc3Spec.
Local Open Scope string_scope.

(** The format of the input: the one that is named or, if none is, the one of the suffix [sf] of the file. *)
Definition input_format (a : args) (sf name ext : string) : Prop := ar_fmt a = Some name \/ ar_fmt a = None /\ sf = ext.

(** The file to write: a name that no file has, made of the stem [st] of the input in the folder asked for (the current one
    otherwise), with a number only if the name without number is taken. *)
Definition output_as {C} (ext : string) (fs : files C) (a : args) (st : string) (q : path) : Prop :=
  let o := match ar_outpath a with None => Path_ "" [] | Some x => path_of x end in
  dget String.eqb (path_str q) fs = None /\
  (in_dir o (st ++ ext) q \/
   exists n, (1 <= n)%nat /\ in_dir o (st ++ "(" ++ NilZero.string_of_uint (Nat.to_uint n) ++ ")" ++ ext) q /\
     forall r, in_dir o (st ++ ext) r -> dget String.eqb (path_str r) fs <> None).
Definition output_file {C} (fs : files C) (a : args) (st : string) (q : path) : Prop := output_as ".ic3" fs a st q.

(** Coordinates multiplied by the scale, if there is one. *)
Definition times (mul : Z -> Z -> Z) (s : option (Z * Z * Z)) (p : list Z * list Z * list Z) : list Z * list Z * list Z :=
  match s with
  | None => p
  | Some (sx, sy, sz) => let '(x, y, z) := p in
      (List.map (fun v => mul v sx) x, List.map (fun v => mul v sy) y, List.map (fun v => mul v sz) z)
  end.

(** A planar Gmsh file that can be extruded: quadrangles with four different nodes each, no two of them on the same nodes;
    boundary elements on known nodes; no patch with all the nodes of a cell. *)
Record gmsh_flat (names : option (list (Z * Z * string))) (nnode : Z) (elts : list felt) : Prop := {
  gf_quads : forall e, In e (GmshSpec.of_dim 2 elts) -> felt_name e = "quad4" /\ NoDup (fe_nodes e);
  gf_distinct : forall l1 e l2 e' l3, GmshSpec.of_dim 2 elts = (l1 ++ e :: l2 ++ e' :: l3)%list -> ~ Permutation (fe_nodes e) (fe_nodes e');
  gf_known : forall e v, In e (GmshSpec.of_dim 1 elts) -> In v (fe_nodes e) -> 1 <= v <= nnode;
  gf_edges : forall k e, is_patch names (GmshSpec.of_dim 1 elts) k -> In e (GmshSpec.of_dim 2 elts) ->
     ~ patch_covers names (GmshSpec.of_dim 1 elts) k (nodes0 e);
  gf_planes : ~ is_patch names (GmshSpec.of_dim 1 elts) "fluid0" /\ ~ is_patch names (GmshSpec.of_dim 1 elts) "fluid1" }.
