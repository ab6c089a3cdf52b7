(** Programs that call the library: the fuzz targets of fuzz/ and the examples of
    examples/, with their dynamic memory. *)
From Coq Require Import String.
From Verif Require Import Base Uenv Lookup Api Register Version Error Heap.

(** A failed assert ends the program with this signal; in this file, and only
    here, computations on the heap may end in [Fail]. *)
Definition SIGABRT : Z := 6.
Definition abort {A} : M A := fun _ => Fail SIGABRT.

(** An array of code points seen as bytes, least significant byte first. *)
Fixpoint words (l : list Z) : list Z :=
  match l with
  | a :: b :: c :: d :: r => a + 256 * (b + 256 * (c + 256 * d)) :: words r
  | _ => []
  end.

Section Client.
  Variable E : allocator.
  Variable U : uenv.
  Variable Lo : locale.
  (** IDN2_VERSION; the variables of the library and of the program before they
      are set; what malloc leaves in an array of so many elements. *)
  Variable version : list Z.
  Variable junk : option nat.
  Variable out0 : option nat.
  Variable garbage : nat -> list Z.

  (** p = malloc (...); assert (p != NULL); followed by filling the block. *)
  Definition new (l : list Z) : M nat :=
    let! p := acquire E (Some l) in
    match p with Some n => ret n | None => abort end.

  (** if (f (..., &out, ...) == IDN2_OK) idn2_free (out); the result is the new
      value of out. *)
  Definition use (f : slot -> M (Z * slot)) (out : option nat) : M (option nat) :=
    let! (rc, o) := f (Some out) in
    if rc =? IDN2_OK then
      let! _ := m_idn2_free E (of_slot o) in ret (of_slot o)
    else ret (of_slot o).
  (** f (..., NULL, ...); *)
  Definition only (f : slot -> M (Z * slot)) : M unit := let! _ := f None in ret tt.

  (** * fuzz/libidn2_register_fuzzer.c *)

  (** Lines 55-61: alabel; the terminator is put at [size], not behind the copied
      data. *)
  Definition alabel_buffer (data : list Z) : list Z :=
    firstn (length data) (ace_prefix ++ data) ++ [0] ++ skipn (S (length data)) (ace_prefix ++ data ++ [0]).

  (** Lines 27-73, LLVMFuzzerTestOneInput; [data], [size] is the list. *)
  Definition fuzz_register (data : list Z) : M Z :=
    if 1024 <? zlen data then ret 0
    else
      let! u := new (data ++ [0]) in
      let ulabel := Some (Block u) in
      let! out :=
        (if zlen data =? 0 then
           let! out := use (fun o => m_register_ul E U Lo junk None None o 0) out0 in
           let! _ := only (fun o => m_register_ul E U Lo junk ulabel None o 0) in
           ret out
         else ret out0) in
      let! out := use (fun o => m_register_ul E U Lo junk ulabel None o 0) out in
      let! _ := free E (Some u) in
      let! a := new (alabel_buffer data) in
      let alabel := Some (Block a) in
      let! _ := use (fun o => m_register_ul E U Lo junk None alabel o 0) out in
      let! _ := (if zlen data =? 0 then only (fun o => m_register_ul E U Lo junk None alabel o 0) else ret tt) in
      let! _ := free E (Some a) in
      ret 0.

  (** * fuzz/libidn2_to_ascii_8z_fuzzer.c *)

  (** Lines 27-34. *)
  Definition fuzz_flags : list Z :=
    [0; IDN2_NFC_INPUT; IDN2_TRANSITIONAL; IDN2_NONTRANSITIONAL;
     Z.lor IDN2_TRANSITIONAL IDN2_USE_STD3_ASCII_RULES; Z.lor IDN2_NONTRANSITIONAL IDN2_USE_STD3_ASCII_RULES].

  (** for (it = 0; it < sizeof(flags)/sizeof(flags[0]); it++) *)
  Fixpoint loop (body : Z -> option nat -> M (option nat)) (fl : list Z) (out : option nat) : M (option nat) :=
    match fl with
    | [] => ret out
    | f :: r => let! out := body f out in loop body r out
    end.

  (** Lines 51-84: the combinations of NULL arguments. *)
  Definition ascii_nulls (domain : option addr) : M (option nat) :=
    let in32 := Some (Caller []) in  (* no elements: the length given is 0 *)
    let in32z := Some (Caller [0]) in
    let! out := use (fun o => m_to_ascii_8z E U junk None o 0) out0 in
    let! _ := only (fun o => m_to_ascii_8z E U junk None o 0) in
    let! _ := only (fun o => m_to_ascii_8z E U junk domain o 0) in
    let! out := use (fun o => m_to_ascii_lz E U Lo junk None o 0) out in
    let! _ := only (fun o => m_to_ascii_lz E U Lo junk None o 0) in
    let! _ := only (fun o => m_to_ascii_lz E U Lo junk domain o 0) in
    let! _ := m_to_ascii_4i E U junk None (Some (garbage 1)) 0 in
    let! _ := m_to_ascii_4i E U junk None None 0 in
    let! _ := m_to_ascii_4i E U junk in32 None 0 in
    let! out := use (fun o => m_to_ascii_4i2 E U junk None o 0) out in
    let! _ := only (fun o => m_to_ascii_4i2 E U junk None o 0) in
    let! _ := only (fun o => m_to_ascii_4i2 E U junk in32 o 0) in
    let! out := use (fun o => m_to_ascii_4z E U junk None o 0) out in
    let! _ := only (fun o => m_to_ascii_4z E U junk None o 0) in
    let! _ := only (fun o => m_to_ascii_4z E U junk in32z o 0) in
    ret out.

  (** Lines 94-114.  Both blocks are allocated before the first assert. *)
  Definition ascii_wide (data : list Z) (out : option nat) : M unit :=
    let! p := acquire E (Some (garbage (S (length (words data))))) in
    let! q := acquire E (Some (garbage 64)) in
    match p, q with
    | Some u32, Some out2 =>
        let! buf := load (Block out2) in
        let! (_, buf') := m_to_ascii_4i E U junk (Some (Caller (words data))) (Some buf) 0 in
        let! _ := match buf' with Some b => fill out2 b | None => ret tt end in
        let! out := loop (fun f => use (fun o => m_to_ascii_4i2 E U junk (Some (Caller (words data))) o f)) fuzz_flags out in
        let! _ := fill u32 (words data ++ [0]) in
        let! _ := loop (fun f => use (fun o => m_to_ascii_4z E U junk (Some (Block u32)) o f)) fuzz_flags out in
        let! _ := free E (Some out2) in
        let! _ := free E (Some u32) in
        ret tt
    | _, _ => abort
    end.

  (** Lines 36-119. *)
  Definition fuzz_to_ascii (data : list Z) : M Z :=
    if 1024 <? zlen data then ret 0
    else
      let! d := new (data ++ [0]) in
      let domain := Some (Block d) in
      let! out := (if zlen data =? 0 then ascii_nulls domain else ret out0) in
      let! out := loop (fun f out =>
        let! out := use (fun o => m_to_ascii_8z E U junk domain o f) out in
        use (fun o => m_to_ascii_lz E U Lo junk domain o f) out) fuzz_flags out in
      let! _ := (if zlen data mod 4 =? 0 then ascii_wide data out else ret tt) in
      let! _ := free E (Some d) in
      ret 0.

  (** * fuzz/libidn2_to_unicode_8z8z_fuzzer.c *)

  (** Lines 46-90; idn2_strerror and idn2_strerror_name have a string for every
      code (Error.v), so the loop over them has no effect but x = NULL. *)
  Definition unicode_nulls (domain : option addr) : M (option nat) :=
    let! out := use (fun o => m_to_unicode_lzlz E Lo junk None o 0) out0 in
    let! _ := only (fun o => m_to_unicode_lzlz E Lo junk None o 0) in
    let! _ := only (fun o => m_to_unicode_lzlz E Lo junk domain o 0) in
    (* lines 63-72: in32 is used without a look at the result of malloc *)
    let! p := acquire E (Some (garbage 1)) in
    let! _ := match p with Some n => fill n [0] | None => undef end in
    let! _ := use (fun o => m_to_unicode_4z4z E junk None o 0) out0 in
    let! _ := only (fun o => m_to_unicode_4z4z E junk None o 0) in
    let! _ := only (fun o => m_to_unicode_4z4z E junk (option_map Block p) o 0) in
    let! _ := free E p in
    let! _ := use (fun o => m_to_unicode_8z4z E None o 0) out0 in
    let! _ := only (fun o => m_to_unicode_8z4z E None o 0) in
    let! _ := only (fun o => m_to_unicode_8z4z E domain o 0) in
    (* lines 82-89: malloc (0) may give NULL *)
    let! p := acquire E (Some []) in
    let! arr := match p with Some n => let! a := load (Block n) in ret (Some a) | None => ret None end in
    let! _ := m_to_unicode_44i E junk None arr (Some 0) 0 in
    let! _ := m_to_unicode_44i E junk None None (Some 0) 0 in
    let! _ := free E p in
    ret out.

  (** Lines 104-113. *)
  Definition unicode_wide (data : list Z) : M unit :=
    let! u32 := new (garbage (length (words data))) in
    let! arr := load (Block u32) in
    let! (_, arr', _) := m_to_unicode_44i E junk (Some (Caller (words data))) (Some arr) (Some (zlen (words data))) 0 in
    let! _ := match arr' with Some a => fill u32 a | None => ret tt end in
    let! _ := free E (Some u32) in
    ret tt.

  (** Lines 30-118; the boolean is x != NULL. *)
  Definition fuzz_to_unicode (data : list Z) : M Z :=
    if 1024 <? zlen data then ret 0
    else
      let! d := new (data ++ [0]) in
      let domain := Some (Block d) in
      let! (x, out) :=
        (if zlen data =? 0 then let! out := unicode_nulls domain in ret (false, out) else ret (true, out0)) in
      let! s := cstr (Block d) in
      let x := match check_version version (Some s) with Some _ => false | None => x end in
      let! _ := (if x then let! p := acquire E (Some (garbage 1)) in free E p else ret tt) in
      let! _ := use (fun o => m_to_unicode_lzlz E Lo junk domain o 0) out in
      let! _ := (if zlen data mod 4 =? 0 then unicode_wide data else ret tt) in
      let! _ := free E (Some d) in
      ret 0.

  (** * examples/*.c *)

  (** Calls of printf and fprintf with their format, escapes as in the source,
      and arguments (strings of the program, messages of the library, numbers);
      and of perror ("fgets"). *)
  Inductive stream := Stdout | Stderr.
  Inductive arg := Str (s : list Z) | Msg (s : string) | Int (n : Z) | Uint (n : Z) | Long (n : Z).
  Inductive write := Printf (f : stream) (fmt : string) (args : list arg) | Perror.

  (** fgets (buf, n, stdin) with [s] on stdin: what it puts before the
      terminator, [None] for NULL. *)
  Fixpoint line (n : nat) (s : list Z) : list Z :=
    match n, s with
    | S n, c :: r => if c =? 10 then [c] else c :: line n r
    | _, _ => []
    end.
  Definition fgets (n : nat) (s : list Z) : option (list Z) :=
    match s with [] => None | _ => Some (line (pred n) s) end.
  (** The string in [buf] after buf[strlen (buf) - 1] = '\0'. *)
  Definition chop (buf : list Z) : out (list Z) :=
    match upto0 buf with [] => Undef | s => Ok (removelast s) end.

  Variable bufsiz : nat.
  (** What printf does with the pointer to the string. *)
  Definition show (p : option nat) : M (list Z) := let! a := local p in cstr a.

  (** examples/lookup.c:24-55, decode.c:25-56, register.c:24-55. *)
  Definition ask (prompt answer : string) (F : addr -> slot -> M (Z * slot)) (stdin : list Z) : M (Z * list write) :=
    let w := [Printf Stdout prompt []] in
    match fgets bufsiz stdin with
    | None => ret (1, w ++ [Perror])
    | Some buf =>
        let! src := must (chop buf) in
        let! (rc, o) := F (Caller src) (Some out0) in
        if negb (rc =? IDN2_OK) then
          ret (1, w ++ [Printf Stderr "error: %s (%s, %d)\n" [Msg (strerror rc); Msg (strerror_name rc); Int rc]])
        else
          let! r := show (of_slot o) in
          let! _ := free E (of_slot o) in
          ret (0, w ++ [Printf Stdout answer [Str r]])
    end.
  Definition main_lookup : list Z -> M (Z * list write) :=
    ask "Enter (possibly non-ASCII) domain name to lookup: " "IDNA2008 domain name to lookup in DNS: %s\n"
      (fun a o => m_lookup_ul E U Lo junk (Some a) o 0).
  Definition main_decode : list Z -> M (Z * list write) :=
    ask "Enter (possibly non-ASCII) domain name to decode: " "Decoded domain name: %s\n"
      (fun a o => m_to_unicode_lzlz E Lo junk (Some a) o 0).
  Definition main_register : list Z -> M (Z * list write) :=
    ask "Enter (possibly non-ASCII) label to register: " "IDNA2008 label to register in DNS: %s\n"
      (fun a o => m_register_ul E U Lo junk (Some a) None o 0).

  (** examples/example-toascii.c:22-52, example-tounicode.c:23-52.  Where fgets
      returns NULL the program goes on with an array that was never set. *)
  Definition ask_hex (failure : string) (F : addr -> slot -> M (Z * slot)) (stdin : list Z) : M (Z * list write) :=
    match fgets bufsiz stdin with
    | None => undef
    | Some buf =>
        let! src := must (chop buf) in
        let w := [Printf Stdout "Read string (length %ld): " [Long (zlen src)]]
                 ++ map (fun c => Printf Stdout "%02x " [Uint (Z.land c 255)]) src ++ [Printf Stdout "\n" []] in
        let! (rc, o) := F (Caller src) (Some out0) in
        if negb (rc =? IDN2_OK) then
          ret (1, w ++ [Printf Stdout failure [Int rc; Msg (strerror rc)]])
        else
          let! r := show (of_slot o) in
          let! _ := free E (of_slot o) in
          ret (0, w ++ [Printf Stdout "ACE label (length %ld): '%s'\n" [Long (zlen r); Str r]])
    end.
  Definition main_toascii : list Z -> M (Z * list write) :=
    ask_hex "ToASCII() failed (%d): %s\n" (fun a o => m_to_ascii_8z E U junk (Some a) o IDN2_NONTRANSITIONAL).
  Definition main_tounicode : list Z -> M (Z * list write) :=
    ask_hex "ToUnicode() failed (%d): %s\n" (fun a o => m_to_unicode_8z8z E junk (Some a) o 0).
End Client.
