(** * S_Shared: vocabulary for a stream shared by threads (C112) *)
From Verif Require Import M_Py M_UInt M_Writer M_Reader M_Stream M_Shared S_IO S_Stream.

(** the whole call at once on a BytesIO, as in a program with one thread *)
Definition do_call (c : call) (s : stream) : res result * stream :=
  match c with CRead c => gmap RVal (read_call c) s | CWrite c => gmap (fun _ => RDone) (write_call c) s end.
(** thread number i makes its next call, start to end *)
Definition whole_call (w : shared) (i : nat) : shared :=
  match nth_error (sh_threads w) i with
  | None => w
  | Some t =>
      match st_prog t (st_results t) with
      | None => w
      | Some c => let (r, s) := do_call c (sh_stream w) in mkShared s (replace (sh_threads w) i (finish t r))
      end
  end.
(** the calls that use the stream at most once *)
Definition one_use (c : call) : Prop :=
  match c with
  | CRead (GInt _ _ | GBool | GChar | GSafeBytes _ | GFixed8 | GUInt160 | GUInt256 | GFloat _ | GDouble _ | GByte | GBytes _ | GFixedString _) => True
  | CWrite (PInt _ _ _ | PByte _ | PBytes _ _ | PChar _ | PBool _ | PFloat _ _ | PDouble _ _ | PUInt160 _ | PUInt256 _ | PFixed8 _) => True
  | CWrite (PVarInt v _) => match as_int v with Some z => z < 253 | None => True end
  | _ => False
  end.
(** every call a program can make satisfies P *)
Definition only (P : call -> Prop) (t : sthread) : Prop := forall results c, st_prog t results = Some c -> P c.
Definition is_write (c : call) : Prop := match c with CWrite _ => True | CRead _ => False end.
Definition idle (t : sthread) : Prop := st_answers t = [].
(** the program that makes these calls one after the other, whatever they return *)
Definition straight (l : list call) (results : list (res result)) : option call := nth_error l (List.length results).
(** the pieces thread number i wrote *)
Definition own (i : nat) (schedule : list nat) (pieces : list bytes) : bytes :=
  concat (map snd (filter (fun p => Nat.eqb (fst p) i) (combine schedule pieces))).
