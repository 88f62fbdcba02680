(** Several readers open in one process, used in any order.  This is the
    client's view of src/vgm/core.py: the only state shared between readers is
    the class attribute [Vgm.clocks] (core.py:47); every reader has its own file
    object and attributes (core.py:50-63). *)
From Verif.Model Require Import Py Command Core.

(** What a client can do: open a file (reader(BytesIO(data)), core.py:153), ask
    the k-th opened object for its next command (core.py:78), or ask for a clock
    (core.py:72). *)
Inductive action :=
| Open (data : list Z)
| Next (k : nat)
| Clock (k : nat) (chip : string).

(** What it sees. *)
Inductive seen :=
| Opened (result : res (option (Z * Z)))  (* size() and version of the reader, or None/exception *)
| NextGave (result : option vcmd + exn)   (* None: StopIteration *)
| ClockGave (result : res Z)
| NoReader.                               (* k is not a reader: TypeError/AttributeError on None *)

Record session := mksession { ss_clocks : clocks; ss_readers : list (option vgm) }.
Definition session_start : session := mksession clocks_empty [].

(** [vgm] with another file position: the file object is mutated by reading. *)
Definition with_file (v : vgm) (f : file) : vgm :=
  mkvgm f (v_eof_offset v) (v_version v) (v_data_start v).

Section Run.
  Variable gunzip : list Z -> res (list Z).

  Definition act (a : action) (s : session) : seen * session :=
    match a with
    | Open d =>
        match reader gunzip (ss_clocks s) (mkfile d 0) with
        | (Ok (Some v), ck) =>
            (Opened (Ok (Some (vgm_size v, v_version v))),
             mksession ck (ss_readers s ++ [Some v]))
        | (Ok None, ck) => (Opened (Ok None), mksession ck (ss_readers s ++ [None]))
        | (Err e, ck) => (Opened (Err e), mksession ck (ss_readers s ++ [None]))
        end
    | Next k =>
        match nth_error (ss_readers s) k with
        | Some (Some v) =>
            let upd f := mksession (ss_clocks s) (set_nth k (Some (with_file v f)) (ss_readers s)) in
            match vgm_next (vfile v) with
            | NStop f => (NextGave (inl None), upd f)
            | NRaise e f => (NextGave (inr e), upd f)
            | NYield c f => (NextGave (inl (Some c)), upd f)
            end
        | _ => (NoReader, s)
        end
    | Clock k chip =>
        match nth_error (ss_readers s) k with
        | Some (Some v) => (ClockGave (vgm_clock (ss_clocks s) chip), s)
        | _ => (NoReader, s)
        end
    end.

  Fixpoint run_session (l : list action) (s : session) : list seen * session :=
    match l with
    | [] => ([], s)
    | a :: r =>
        let (o, s) := act a s in
        let (os, s) := run_session r s in (o :: os, s)
    end.
End Run.
