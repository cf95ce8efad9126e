(** * M_ClassName: BinaryReader.ReadSerializableArray with its class_name argument, and
    neocore/IO/Mixins.py

    M_Reader.ReadSerializableArray takes the class itself; here it is looked up by name, and what
    the name stands for may be anything. *)
From Verif Require Import M_Py M_UInt M_Writer M_Reader.

(** s.split('.') *)
Fixpoint split_dot (s : pystr) : list pystr :=
  match s with
  | [] => [[]]
  | c :: r => if c =? 46 then [] :: split_dot r
              else match split_dot r with w :: ws => (c :: w) :: ws | [] => [[c]] end
  end.
(** '.'.join(l) *)
Fixpoint join_dot (l : list pystr) : pystr :=
  match l with [] => [] | [w] => w | w :: r => w ++ 46 :: join_dot r end.

(** What a name may stand for: klass() and item.Deserialize(reader); calling something that is not
    callable, or an object without Deserialize, is a [Raise].  [A] is the type of all objects. *)
Record thing (A : Type) := mkThing { th_call : res A; th_deserialize : A -> io A }.
Arguments mkThing {A}. Arguments th_call {A}. Arguments th_deserialize {A}.
(** The modules that can be imported and their attributes: import_module(name), then
    getattr(module, name), either of which may raise. *)
Record modules (A : Type) := mkModules {
  find_module : pystr -> res nat;
  find_attr : nat -> pystr -> res (thing A) }.
Arguments mkModules {A}. Arguments find_module {A}. Arguments find_attr {A}.

(** importlib.import_module(name) without a package: relative names are a TypeError, the empty name
    a ValueError *)
Definition import_module {A} (E : modules A) (name : pystr) : res nat :=
  match name with
  | [] => Raise ValueError
  | c :: _ => if c =? 46 then Raise TypeError else find_module E name
  end.

(** BinaryReader.py:319-321 *)
Definition lookup_class {A} (E : modules A) (class_name : pystr) : res (thing A) :=
  let module := join_dot (removelast (split_dot class_name)) in
  let klassname := last (split_dot class_name) [] in
  do m <- import_module E module;
  find_attr E m klassname.

(** BinaryReader.py:323-333: the loop inside the try block; an exception ends it and the items so
    far are returned *)
Fixpoint read_things {A} (k : thing A) (n : nat) : io (list A) :=
  match n with
  | O => iret []
  | S m => fun s =>
      match ibind (ilift (th_call k)) (th_deserialize k) s with
      | (Raise _, s') => (Ok [], s')
      | (Ok item, s') => ibind (read_things k m) (fun items => iret (item :: items)) s'
      end
  end.
(** BinaryReader.py:308-334 ReadSerializableArray *)
Definition ReadSerializableArray_named {A} (E : modules A) (class_name : pystr) (max : Z) : io (list A) :=
  klass <-- ilift (lookup_class E class_name) ;
  length <-- ReadVarInt max ;
  read_things klass (Z.to_nat length).

(** Mixins.py:8-18 SerializableMixin: Serialize, Deserialize and ToArray do nothing; the only object
    attribute is its identity, so [tt] *)
Definition Mixin_Serialize (o : unit) : io unit := iret tt.
Definition Mixin_Deserialize (o : unit) : io unit := iret o.
Definition Mixin_ToArray (o : unit) : option bytes := None.
Definition SerializableMixin : thing unit := mkThing (Ok tt) Mixin_Deserialize.
Definition SerializableMixin_klass : klass := mkKlass unit tt Mixin_Serialize Mixin_Deserialize.
