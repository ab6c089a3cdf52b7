(** What is expected of programs that call the library. *)
From Coq Require Import String.
From Verif Require Import Base Uenv Api Error SpecLookup Heap SpecHeap Client.

Definition bytes (l : list Z) : Prop := Forall (fun b => 0 <= b <= 255) l.

(** The program comes to its end with status 0 and has freed what it has
    allocated, without undefined behaviour; or one of its asserts has stopped it
    after an allocation has failed. *)
Definition harmless (E : allocator) (m : M Z) : Prop := forall h, heap_ok h ->
  match m h with
  | Ok (status, h') => status = 0 /\ live h' = live h
  | Fail s => s = SIGABRT /\ exists n, (calls h <= n)%nat /\ exists k, fails E n k = true
  | _ => False
  end.

(** The lists of bytes that malloc (n) may hand out. *)
Definition arrays (garbage : nat -> list Z) : Prop := forall n, length (garbage n) = n.

(** A first line of input that fits into the array together with its newline and
    a terminator. *)
Definition first_line (n : nat) (l input : list Z) : Prop :=
  c_string l /\ ~ In 10 l /\ (length l + 2 <= n)%nat /\ exists rest, input = l ++ 10 :: rest.
(** The same where the input ends before the newline. *)
Definition unfinished_line (n : nat) (l input : list Z) : Prop :=
  c_string l /\ ~ In 10 l /\ (length l + 1 <= n)%nat /\ input = l.
(** [l] is as much of the first line as an array of [n] characters has room for. *)
Definition filled_line (n : nat) (l input : list Z) : Prop :=
  c_string l /\ ~ In 10 l /\ (length l + 1 = n)%nat /\ exists rest, input = l ++ rest.
(** A NUL comes before the newline. *)
Definition nul_line (n : nat) (l input : list Z) : Prop :=
  c_string l /\ ~ In 10 l /\ (length l + 2 <= n)%nat /\ exists rest, input = l ++ 0 :: rest.

(** The program writes [pre] and then [good r] for the result [r] of the call
    [P], with status 0, or [bad rc] for its error code, with status 1; the code is
    IDN2_MALLOC if an allocation has failed.  It frees what it has allocated. *)
Definition reports (E : allocator) (m : M (Z * list write)) (P : cell -> result) (pre : list write)
  (good : list Z -> write) (bad : Z -> write) : Prop := forall h, heap_ok h ->
  exists status w h', m h = Ok (status, w, h') /\ live h' = live h /\
    ((exists r, P (Some None) = Ok (IDN2_OK, Some (Some r)) /\ status = 0 /\ w = (pre ++ [good r])%list) \/
     (exists rc, rc <> IDN2_OK /\ status = 1 /\ w = (pre ++ [bad rc])%list /\
        (P (Some None) = Ok (rc, Some None) \/ (rc = IDN2_MALLOC /\ ran_out E h h')))).

Definition dumped (s : list Z) : list write :=
  [Printf Stdout "Read string (length %ld): " [Long (zlen s)]] ++ map (fun c => Printf Stdout "%02x " [Uint c]) s ++ [Printf Stdout "\n" []].
Definition failure (rc : Z) : write := Printf Stderr "error: %s (%s, %d)\n" [Msg (strerror rc); Msg (strerror_name rc); Int rc].
