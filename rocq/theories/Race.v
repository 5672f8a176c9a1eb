(** * Several processes that look for a safe name and write to it: [find_safe_newfile]
    (cfdtools/api.py:95-109) followed by the writing of the file (cfdtools/_cli.py:234-247), one test of
    existence or one writing at a time. *)
From Verif Require Export Py Files.

Section Race.
  Context {C : Type}.
  (** The files by name, with their contents. *)
  Definition files : Type := dict string C.
  Definition fexists (fs : files) (s : string) : bool := dmem String.eqb s fs.

  (** Where a process is: about to test the name [cur], the [i]-th one; holding a name found free;
      having written. *)
  Inductive pstate : Type := Trying (i : nat) (cur : path) | Named (cur : path) | Done (cur : path).
  (** A process: the name it asked for, what it writes, where it is. *)
  Record proc : Type := Proc { pr_path : path; pr_content : C; pr_state : pstate }.
  Definition start (p : path) (c : C) : proc := Proc p c (Trying 0 p).

  (** One step of one process: the test of api.py:103 with the next name (api.py:104-107), or the
      writing of the file (_cli.py:247). *)
  Definition pstep (fs : files) (pr : proc) : files * proc :=
    match pr_state pr with
    | Trying i cur =>
        if fexists fs (path_str cur) then (fs, Proc (pr_path pr) (pr_content pr) (Trying (S i) (numbered (pr_path pr) (S i))))
        else (fs, Proc (pr_path pr) (pr_content pr) (Named cur))
    | Named cur => (dset String.eqb (path_str cur) (pr_content pr) fs, Proc (pr_path pr) (pr_content pr) (Done cur))
    | Done _ => (fs, pr)
    end.

  (** A run: the processes move in the order of the schedule. *)
  Definition world : Type := files * list proc.
  Definition wstep (w : world) (k : nat) : world :=
    match nth_error (snd w) k with
    | Some pr => let '(fs, pr') := pstep (fst w) pr in (fs, upd_nat (snd w) k pr')
    | None => w
    end.
  Definition run (w : world) (schedule : list nat) : world := fold_left wstep schedule w.
End Race.
Arguments files : clear implicits.
Arguments proc : clear implicits.
Arguments world : clear implicits.
