(** Several threads calling the library at once.  [code] is the memory
    operations of a function, one after the other; [alone] runs it by itself, in
    the heap of Heap.v; [tstep] and [sstep] run any number of threads on one
    memory, one operation of one of them at a time.  Blocks have names in a
    thread (the n-th block it got) and addresses in the memory; an address may
    be used again after the block has been freed.

    Every thread has its own errno; the tables of the library and the strings
    of the callers are only read, so reading them is no step. *)
From Verif Require Import Base Heap.

Inductive code (A : Type) : Type :=
| Done (a : A)
| Read (n : nat) (k : list Z -> code A)
| Write (n : nat) (x : list Z) (k : code A)
| Malloc (o : option (list Z)) (k : option nat -> code A)
| Free (p : option nat) (k : code A)
| Errno (k : bool -> code A)
| Wrong
| Spin.
Arguments Done {A}. Arguments Read {A}. Arguments Write {A}. Arguments Malloc {A}. Arguments Free {A}. Arguments Errno {A}.
Arguments Wrong {A}. Arguments Spin {A}.

Fixpoint alone {A} (E : allocator) (c : code A) : M A :=
  match c with
  | Done a => ret a
  | Read n k => let! l := load (Block n) in alone E (k l)
  | Write n x k => let! _ := fill n x in alone E k
  | Malloc o k => let! p := acquire E o in alone E (k p)
  | Free p k => let! _ := free E p in alone E k
  | Errno k => let! b := nomem in alone E (k b)
  | Wrong => undef
  | Spin => fun _ => NoFuel
  end.

(** [c] is what [m] does, whatever the allocator. *)
Definition is_code {A} (c : code A) (m : allocator -> M A) : Prop := forall E h, m E h = alone E c h.

(** The memory: addresses of the blocks in use and their contents. *)
Definition memory := list (Z * list Z).
Fixpoint at_address (x : Z) (G : memory) : option (list Z) :=
  match G with [] => None | (y, l) :: r => if y =? x then Some l else at_address x r end.
Fixpoint without (x : Z) (G : memory) : memory :=
  match G with [] => [] | (y, l) :: r => if y =? x then r else (y, l) :: without x r end.
Fixpoint with_contents (x : Z) (l : list Z) (G : memory) : memory :=
  match G with [] => [] | (y, m) :: r => if y =? x then (y, l) :: r else (y, m) :: with_contents x l r end.

(** A thread: what it has to do, where its blocks are, how many it got, errno,
    and whether its allocations may fail. *)
Record thread (A : Type) := Thread { todo : code A; place : nat -> Z; named : nat; error : Z; scarce : bool }.
Arguments Thread {A}. Arguments todo {A}. Arguments place {A}. Arguments named {A}. Arguments error {A}. Arguments scarce {A}.

Section Steps.
  Context {A : Type}.
  (** Whether free may change errno. *)
  Variable spoil : bool.

  Inductive tstep (G : memory) : thread A -> memory -> thread A -> Prop :=
  | ts_read : forall n k pl nm e sc l, at_address (pl n) G = Some l ->
      tstep G (Thread (Read n k) pl nm e sc) G (Thread (k l) pl nm e sc)
  | ts_write : forall n x k pl nm e sc l, at_address (pl n) G = Some l ->
      tstep G (Thread (Write n x k) pl nm e sc) (with_contents (pl n) x G) (Thread k pl nm e sc)
  | ts_malloc : forall l k pl nm e sc x, at_address x G = None ->
      tstep G (Thread (Malloc (Some l) k) pl nm e sc) ((x, l) :: G)
        (Thread (k (Some nm)) (fun n => if Nat.eqb n nm then x else pl n) (S nm) e sc)
  | ts_refused : forall k pl nm e sc,
      tstep G (Thread (Malloc None k) pl nm e sc) G (Thread (k None) pl nm EILSEQ sc)
  | ts_scarce : forall o k pl nm e,
      tstep G (Thread (Malloc o k) pl nm e true) G (Thread (k None) pl nm ENOMEM true)
  | ts_free_null : forall k pl nm e sc e', e' = e \/ spoil = true ->
      tstep G (Thread (Free None k) pl nm e sc) G (Thread k pl nm e' sc)
  | ts_free : forall n k pl nm e sc e' l, at_address (pl n) G = Some l -> e' = e \/ spoil = true ->
      tstep G (Thread (Free (Some n) k) pl nm e sc) (without (pl n) G) (Thread k pl nm e' sc)
  | ts_errno : forall k pl nm e sc,
      tstep G (Thread (Errno k) pl nm e sc) G (Thread (k (e =? ENOMEM)) pl nm e sc).

  Definition system := (memory * list (thread A))%type.
  Inductive sstep : system -> system -> Prop :=
  | ss : forall G G' before t t' after, tstep G t G' t' -> sstep (G, before ++ t :: after) (G', before ++ t' :: after).
  Inductive steps : system -> system -> Prop :=
  | steps_none : forall s, steps s s
  | steps_more : forall s s1 s2, steps s s1 -> sstep s1 s2 -> steps s s2.
End Steps.

(** The block that a thread is about to read, write or free. *)
Definition touches {A} (t : thread A) (x : Z) : Prop :=
  match todo t with
  | Read n _ | Write n _ _ | Free (Some n) _ => place t n = x
  | _ => False
  end.
Definition finished {A} (t : thread A) (a : A) : Prop := todo t = Done a.
