(** * [vtkpack] as a whole program, cfdtools/_cli.py:182-200: the words of the command line, then [VtkPack]. *)
From Verif Require Export VtkPack CmdLine.

Section PackWhole.
  Context {F P D V T : Type} (mdist kdist : P -> P -> D) (dle : D -> D -> bool)
          (nearest : list P -> P -> Z) (truth : T -> bool) (tol : D) (centers : grid (list F) -> list P).
  Context (ints floats : string -> option Z).

  Definition pack_command (ver : string) (argv : list string) (fs : files (node F V T)) : outcome (res string) * files (node F V T) :=
    match pack_files ints floats argv with
    | Done names => let '(r, fs') := vtkpack mdist kdist dle nearest truth tol centers (List.length fs + 1) ver names fs in (Done r, fs')
    | Exit c => (Exit c, fs)
    | Stuck => (Stuck, fs)
    end.
End PackWhole.

(** What [vtkpack] sees of the files of another command: [seen] gives the content of a file as pyvista reads it. *)
Definition view {C N : Type} (seen : C -> N) (fs : files C) : files N := List.map (fun kc => (fst kc, seen (snd kc))) fs.
