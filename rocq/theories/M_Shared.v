(** * M_Shared: several threads using BinaryReader/BinaryWriter on one BytesIO

    BinaryReader.__init__ and BinaryWriter.__init__ (BinaryReader.py:22-30, BinaryWriter.py:47-55) only
    keep the stream, so any number of readers and writers in any number of threads may share it.
    io.BytesIO's read and write are single C calls, which CPython's interpreter lock makes atomic;
    threads are switched between them.  What a method does between two stream operations is its own
    business: it touches no shared state.  So a method in progress is described by the answers its
    stream operations have got so far, and what it does next by replaying it with these answers. *)
From Verif Require Import M_Py M_UInt M_Writer M_Reader M_Stream S_IO S_Stream.

(** a method call with its arguments (S_Stream), and what it returns; writers' byte counts are dropped *)
Inductive call := CRead (c : rcall) | CWrite (c : wcall).
Inductive result := RVal (v : rval) | RDone.
(** the call over any stream object (M_Stream) *)
Definition gcall {S} (dread : Z -> S -> res bytes * S) (dwrite : bytes -> S -> res Z * S) (c : call) : S -> res result * S :=
  match c with
  | CRead c => gmap RVal (gread dread c)
  | CWrite c => gmap (fun _ => RDone) (gwrite dwrite c)
  end.

(** a stream object that gives the recorded answers and notes the first operation it has no answer for *)
Inductive answer := AData (r : res bytes) | AWrote (r : res Z).
Inductive request := QRead (n : Z) | QWrite (b : bytes).
Definition tape : Type := list answer * option request.
Definition tape_read (n : Z) (t : tape) : res bytes * tape :=
  match t with
  | (AData r :: l, None) => (r, (l, None))
  | (_, None) => (Ok [], ([], Some (QRead n)))
  | _ => (Ok [], t)
  end.
Definition tape_write (b : bytes) (t : tape) : res Z * tape :=
  match t with
  | (AWrote r :: l, None) => (r, (l, None))
  | (_, None) => (Ok 0, ([], Some (QWrite b)))
  | _ => (Ok 0, t)
  end.
Inductive outcome := Blocked (q : request) | Finished (r : res result).
Definition replay (c : call) (answers : list answer) : outcome :=
  match gcall tape_read tape_write c (answers, None) with
  | (r, (_, None)) => Finished r
  | (_, (_, Some q)) => Blocked q
  end.

(** A thread: its program chooses the next call from the results (or exceptions) so far, latest first;
    [st_answers] are the answers the call in progress has got. *)
Record sthread := mkSThread {
  st_prog : list (res result) -> option call;
  st_results : list (res result);
  st_answers : list answer }.
Definition finish (t : sthread) (r : res result) : sthread := mkSThread (st_prog t) (r :: st_results t) [].
(** the call goes on with one more answer, to its next stream operation or to its end *)
Definition resume (c : call) (t : sthread) (a : answer) : sthread :=
  let answers := st_answers t ++ [a] in
  match replay c answers with
  | Finished r => finish t r
  | Blocked _ => mkSThread (st_prog t) (st_results t) answers
  end.
(** one step of a thread: one stream operation (or a whole call that makes none) *)
Definition sstep (s : stream) (t : sthread) : stream * sthread :=
  match st_prog t (st_results t) with
  | None => (s, t)
  | Some c =>
      match replay c (st_answers t) with
      | Finished r => (s, finish t r)
      | Blocked (QRead n) => let (r, s') := bio_read n s in (s', resume c t (AData r))
      | Blocked (QWrite b) => let (r, s') := bio_write b s in (s', resume c t (AWrote r))
      end
  end.
Record shared := mkShared { sh_stream : stream; sh_threads : list sthread }.
Fixpoint replace {A} (l : list A) (n : nat) (x : A) : list A :=
  match l, n with [], _ => [] | _ :: r, O => x :: r | y :: r, S k => y :: replace r k x end.
Definition wstep (w : shared) (i : nat) : shared :=
  match nth_error (sh_threads w) i with
  | None => w
  | Some t => let (s, t') := sstep (sh_stream w) t in mkShared s (replace (sh_threads w) i t')
  end.
(** a schedule: which thread takes the next step *)
Definition wrun (w : shared) (schedule : list nat) : shared := fold_left wstep schedule w.
Definition begin (prog : list (res result) -> option call) : sthread := mkSThread prog [] [].
