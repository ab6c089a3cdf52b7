(** A small part of C11, so that functions of lib/*.c can be written down statement
    by statement: integer types of an LP64 machine, local variables, arrays reached
    through parameters, loops and calls.  What C11 leaves undefined is the outcome
    [UB]: signed overflow, division by zero, bad shifts, reading a variable or cell
    that was never set, and leaving an array.  Nothing here is particular to libidn2. *)
From Coq Require Import String.
From Verif Require Import Base.
Local Open Scope string_scope.
Local Open Scope list_scope.
Local Open Scope Z_scope.

(** C11 6.2.5.  [char] is one of [I8] and [U8], depending on the machine. *)
Inductive cty := I8 | U8 | I32 | U32 | I64 | U64.
Definition lo (t : cty) : Z := match t with I8 => -128 | I32 => -2147483648 | I64 => -9223372036854775808 | _ => 0 end.
Definition hi (t : cty) : Z :=
  match t with I8 => 127 | U8 => 255 | I32 => 2147483647 | U32 => 4294967295 | I64 => 9223372036854775807 | U64 => 18446744073709551615 end.
Definition is_signed (t : cty) : bool := match t with I8 | I32 | I64 => true | _ => false end.
(** 6.3.1.3; conversion to a signed type that cannot hold the value is left to the
    implementation, here it wraps round as in GCC and Clang. *)
Definition conv (t : cty) (z : Z) : Z :=
  match t with U32 => u32 z | U64 => u64 z | U8 => z mod 256 | I8 => (z + 128) mod 256 - 128
  | I32 => u32 (z + 2147483648) - 2147483648 | I64 => u64 (z + 9223372036854775808) - 9223372036854775808 end.
Definition fits (a b : cty) : bool :=
  match a, b with
  | I8, (I8 | I32 | I64) | U8, (U8 | I32 | U32 | I64 | U64) | I32, (I32 | I64) | U32, (U32 | I64 | U64) | I64, I64 | U64, U64 => true
  | _, _ => false
  end.
Lemma fits_range : forall a b, fits a b = (lo b <=? lo a) && (hi a <=? hi b).
Proof. intros [] []; reflexivity. Qed.
Definition cast (a b : cty) (z : Z) : Z := if fits a b then z else conv b z.
(** 6.3.1.1 and 6.3.1.8. *)
Definition promote (t : cty) : cty := match t with I8 | U8 => I32 | t => t end.
Definition common (a b : cty) : cty :=
  match promote a, promote b with
  | U64, _ | _, U64 => U64 | I64, _ | _, I64 => I64 | U32, _ | _, U32 => U32 | _, _ => I32
  end.

Inductive binop := Add | Sub | Mul | Div | Mod | Shl | Shr | Lt | Le | Gt | Ge | Eq | Ne | BAnd | BOr.
Inductive expr :=
| EInt (t : cty) (z : Z)
| EVar (x : string)
| EIdx (a : string) (i : expr)                  (* a[i] *)
| EBin (o : binop) (a b : expr)
| EAnd (a b : expr) | EOr (a b : expr) | ENot (a : expr)
| ECond (c a b : expr)                          (* c ? a : b *)
| ECast (t : cty) (a : expr)
| EPre (x : string) | EPost (x : string)        (* ++x and x++ *)
| EAsg (x : string) (a : expr)                  (* x = a *)
| EOp (o : binop) (x : string) (a : expr)       (* x o= a *)
| ECall (f : string) (a : list string) (args : list expr). (* f (a, .., args, ..), the arrays first *)
Inductive stmt :=
| SSkip
| SExp (e : expr)
| SStore (a : string) (i e : expr)              (* a[i] = e *)
| SMove (a : string) (d s : list expr) (n : expr) (* memmove (a + d + .., a + s + .., n) *)
| SSeq (a b : stmt)
| SIf (c : expr) (a b : stmt)
| SLoop (c : expr) (step : stmt) (body : stmt)  (* for (; c; step) body *)
| SBreak
| SContinue
| SReturn (e : expr).
(** [f_arrs] are the parameters that are arrays; none of them is written to by a
    function that is called from another one here. *)
Record cfun := mkfun { f_ret : cty; f_arrs : list string; f_params : list (string * cty); f_locals : list (string * cty); f_body : stmt }.

(** Variables with their types and values, [None] before the first assignment; arrays
    with their element types and cells. *)
Record cst := mkst { vars : list (string * (cty * option Z)); arrs : list (string * (cty * list (option Z))) }.
Inductive res (A : Type) := Val (a : A) | UB | Fuel.
Arguments Val {A} a. Arguments UB {A}. Arguments Fuel {A}.
Definition rbind {A B} (r : res A) (f : A -> res B) : res B := match r with Val a => f a | UB => UB | Fuel => Fuel end.

Fixpoint assoc {A} (x : string) (l : list (string * A)) : option A :=
  match l with [] => None | (y, a) :: r => if String.eqb x y then Some a else assoc x r end.
Fixpoint update {A} (x : string) (f : A -> A) (l : list (string * A)) : list (string * A) :=
  match l with [] => [] | (y, a) :: r => if String.eqb x y then (y, f a) :: r else (y, a) :: update x f r end.
Definition get_var (x : string) (st : cst) : res (cty * Z) :=
  match assoc x (vars st) with Some (t, Some z) => Val (t, z) | _ => UB end.
Definition set_var (x : string) (v : cty * Z) (st : cst) : res ((cty * Z) * cst) :=
  match assoc x (vars st) with
  | Some (t, _) => let z := cast (fst v) t (snd v) in Val ((t, z), mkst (update x (fun _ => (t, Some z)) (vars st)) (arrs st))
  | None => UB
  end.
Definition cell (l : list (option Z)) (i : Z) : res Z :=
  if (0 <=? i) && (i <? zlen l) then match nth (Z.to_nat i) l None with Some z => Val z | None => UB end else UB.
Definition set_cell (l : list (option Z)) (i z : Z) : res (list (option Z)) :=
  if (0 <=? i) && (i <? zlen l) then Val (firstn (Z.to_nat i) l ++ Some z :: skipn (S (Z.to_nat i)) l) else UB.
(** memmove, 7.24.2.2, and the pointers it is given, 6.5.6; in elements of the array. *)
Definition move (l : list (option Z)) (d s n : Z) : res (list (option Z)) :=
  if (0 <=? n) && (0 <=? d) && (d + n <=? zlen l) && (0 <=? s) && (s + n <=? zlen l)
  then Val (firstn (Z.to_nat d) l ++ firstn (Z.to_nat n) (skipn (Z.to_nat s) l) ++ skipn (Z.to_nat (d + n)) l) else UB.
Definition size (t : cty) : Z := match t with I8 | U8 => 1 | I32 | U32 => 4 | I64 | U64 => 8 end.

(** The result of an arithmetic operator in type [t]: 6.2.5/9, 6.5/5. *)
Definition arith (t : cty) (z : Z) : res (cty * Z) :=
  if is_signed t then if (lo t <=? z) && (z <=? hi t) then Val (t, z) else UB else Val (t, conv t z).
Definition truth (b : bool) : res (cty * Z) := Val (I32, if b then 1 else 0).
Definition bin (o : binop) (a b : cty * Z) : res (cty * Z) :=
  let t := common (fst a) (fst b) in
  let x := cast (fst a) t (snd a) in
  let y := cast (fst b) t (snd b) in
  match o with
  | Add => arith t (x + y) | Sub => arith t (x - y) | Mul => arith t (x * y)
  | Div => if y =? 0 then UB else arith t (Z.quot x y)
  | Mod => if y =? 0 then UB else arith t (Z.rem x y)
  | Lt => truth (x <? y) | Le => truth (x <=? y) | Gt => truth (y <? x) | Ge => truth (y <=? x)
  | Eq => truth (x =? y) | Ne => truth (negb (x =? y))
  | BAnd => if (x <? 0) || (y <? 0) then UB else Val (t, Z.land x y)
  | BOr => if (x <? 0) || (y <? 0) then UB else Val (t, Z.lor x y)
  | Shl | Shr => (* 6.5.7 *)
      let t := promote (fst a) in
      if (snd b <? 0) || (8 * size t <=? snd b) || (snd a <? 0) then UB else
      match o with Shl => arith t (Z.shiftl (snd a) (snd b)) | _ => Val (t, Z.shiftr (snd a) (snd b)) end
  end.

Notation carr := (cty * list (option Z))%type.
Fixpoint pick (l : list string) (m : list (string * carr)) : option (list carr) :=
  match l with
  | [] => Some []
  | a :: l => match assoc a m, pick l m with Some x, Some r => Some (x :: r) | _, _ => None end
  end.

Section Run.
  (** The functions called: their return types, and what a call gives with so much fuel. *)
  Variable rty : string -> cty.
  Variable call : nat -> string -> list (cty * Z) -> list carr -> res Z.

  (** The type of an expression is known without running it; only "?:" needs it. *)
  Fixpoint ety (st : cst) (e : expr) : cty :=
    match e with
    | EInt t _ => t
    | EVar x | EPre x | EPost x | EAsg x _ | EOp _ x _ => match assoc x (vars st) with Some (t, _) => t | None => I32 end
    | EIdx a _ => match assoc a (arrs st) with Some (t, _) => t | None => I32 end
    | EBin o a b =>
        match o with
        | Add | Sub | Mul | Div | Mod | BAnd | BOr => common (ety st a) (ety st b)
        | Shl | Shr => promote (ety st a)
        | _ => I32
        end
    | EAnd _ _ | EOr _ _ | ENot _ => I32
    | ECond _ a b => common (ety st a) (ety st b)
    | ECast t _ => t
    | ECall f _ _ => rty f
    end.

  Fixpoint eval (n : nat) (e : expr) (st : cst) : res ((cty * Z) * cst) :=
    match e with
    | EInt t z => Val ((t, z), st)
    | EVar x => rbind (get_var x st) (fun v => Val (v, st))
    | EIdx a i =>
        rbind (eval n i st) (fun '(v, st) =>
        match assoc a (arrs st) with Some (t, l) => rbind (cell l (snd v)) (fun z => Val ((t, z), st)) | None => UB end)
    | EBin o a b => rbind (eval n a st) (fun '(x, st) => rbind (eval n b st) (fun '(y, st) => rbind (bin o x y) (fun v => Val (v, st))))
    | EAnd a b =>
        rbind (eval n a st) (fun '(x, st) => if snd x =? 0 then Val ((I32, 0), st) else
        rbind (eval n b st) (fun '(y, st) => Val ((I32, if snd y =? 0 then 0 else 1), st)))
    | EOr a b =>
        rbind (eval n a st) (fun '(x, st) => if snd x =? 0 then
        rbind (eval n b st) (fun '(y, st) => Val ((I32, if snd y =? 0 then 0 else 1), st)) else Val ((I32, 1), st))
    | ENot a => rbind (eval n a st) (fun '(x, st) => Val ((I32, if snd x =? 0 then 1 else 0), st))
    | ECond c a b =>
        let t := common (ety st a) (ety st b) in
        rbind (eval n c st) (fun '(x, st) =>
        rbind (eval n (if snd x =? 0 then b else a) st) (fun '(v, st) => Val ((t, cast (fst v) t (snd v)), st)))
    | ECast t a => rbind (eval n a st) (fun '(x, st) => Val ((t, cast (fst x) t (snd x)), st))
    | EPre x => rbind (get_var x st) (fun v => rbind (bin Add v (I32, 1)) (fun w => set_var x w st))
    | EPost x =>
        rbind (get_var x st) (fun v => rbind (bin Add v (I32, 1)) (fun w => rbind (set_var x w st) (fun '(_, st) => Val (v, st))))
    | EAsg x a => rbind (eval n a st) (fun '(v, st) => set_var x v st)
    | EOp o x a => rbind (eval n a st) (fun '(y, st) => rbind (get_var x st) (fun v => rbind (bin o v y) (fun w => set_var x w st)))
    | ECall f a args =>
        rbind ((fix evs (l : list expr) (st : cst) : res (list (cty * Z) * cst) :=
                  match l with
                  | [] => Val ([], st)
                  | a :: l => rbind (eval n a st) (fun '(v, st) => rbind (evs l st) (fun '(vs, st) => Val (v :: vs, st)))
                  end) args st) (fun '(vs, st) =>
        match pick a (arrs st) with Some m => rbind (call n f vs m) (fun z => Val ((rty f, z), st)) | None => UB end)
    end.
  Fixpoint sum (n : nat) (l : list expr) (st : cst) : res (Z * cst) :=
    match l with
    | [] => Val (0, st)
    | a :: l => rbind (eval n a st) (fun '(v, st) => rbind (sum n l st) (fun '(z, st) => Val (snd v + z, st)))
    end.

  Inductive outcome := Norm (st : cst) | Brk (st : cst) | Cnt (st : cst) | Ret (v : cty * Z) (st : cst) | Und | Out.
  Definition obind {A} (r : res A) (f : A -> outcome) : outcome := match r with Val a => f a | UB => Und | Fuel => Out end.
  Definition after (o : outcome) (f : cst -> outcome) : outcome := match o with Norm st => f st | o => o end.

  Section Loop.
    Variables (cond : cst -> res ((cty * Z) * cst)) (step body : cst -> outcome).
    Fixpoint loop (k : nat) (st : cst) : outcome :=
      match k with
      | O => Out
      | S k => obind (cond st) (fun '(v, st) => if snd v =? 0 then Norm st else
               match body st with
               | Norm st | Cnt st => after (step st) (loop k)
               | Brk st => Norm st
               | o => o
               end)
      end.
  End Loop.

  Fixpoint exec (n : nat) (s : stmt) (st : cst) : outcome :=
    match s with
    | SSkip => Norm st
    | SExp e => obind (eval n e st) (fun '(_, st) => Norm st)
    | SStore a i e =>
        obind (eval n i st) (fun '(j, st) => obind (eval n e st) (fun '(v, st) =>
        match assoc a (arrs st) with
        | Some (t, l) => obind (set_cell l (snd j) (cast (fst v) t (snd v))) (fun l => Norm (mkst (vars st) (update a (fun _ => (t, l)) (arrs st))))
        | None => Und
        end))
    | SMove a d s m =>
        obind (sum n d st) (fun '(d, st) => obind (sum n s st) (fun '(s, st) => obind (eval n m st) (fun '(m, st) =>
        match assoc a (arrs st) with
        | Some (t, l) =>
            if snd m mod size t =? 0
            then obind (move l d s (snd m / size t)) (fun l => Norm (mkst (vars st) (update a (fun _ => (t, l)) (arrs st))))
            else Und
        | None => Und
        end)))
    | SSeq a b => after (exec n a st) (exec n b)
    | SIf c a b => obind (eval n c st) (fun '(v, st) => if snd v =? 0 then exec n b st else exec n a st)
    | SLoop c step body => loop (eval n c) (exec n step) (exec n body) n st
    | SBreak => Brk st
    | SContinue => Cnt st
    | SReturn e => obind (eval n e st) (fun '(v, st) => Ret v st)
    end.
End Run.

(** A call: the arguments are converted to the types of the parameters (6.5.2.2), the
    locals have no value yet, the result is converted to the return type (6.8.6.4). *)
Definition declare (f : cfun) (args : list (cty * Z)) : list (string * (cty * option Z)) :=
  map (fun '((x, t), v) => (x, (t, Some (cast (fst v) t (snd v))))) (combine (f_params f) args) ++ map (fun '(x, t) => (x, (t, None))) (f_locals f).
(** A program: functions written in the language, and functions of libraries of which
    only the return type and the value are known. *)
Definition clib : Type := string -> option (cty * (list (cty * Z) -> list carr -> res Z)).
Definition no_lib : clib := fun _ => None.
Record prog := mkprog { p_lib : clib; p_funs : list (string * cfun) }.
Definition types (P : prog) (f : string) : cty :=
  match p_lib P f with Some (t, _) => t | None => match assoc f (p_funs P) with Some g => f_ret g | None => I32 end end.
(** [d] bounds the depth of calls. *)
Fixpoint calls (P : prog) (d : nat) (n : nat) (f : string) (args : list (cty * Z)) (m : list carr) : res Z :=
  match p_lib P f, d with
  | Some (_, g), _ => g args m
  | None, O => Fuel
  | None, S d =>
      match assoc f (p_funs P) with
      | Some g =>
          if (length args =? length (f_params g))%nat && (length m =? length (f_arrs g))%nat then
          match exec (types P) (calls P d) n (f_body g) (mkst (declare g args) (combine (f_arrs g) m)) with
          | Ret v _ => Val (cast (fst v) (f_ret g) (snd v))
          | Out => Fuel
          | _ => UB
          end else UB
      | None => UB
      end
  end.
(** A function called from outside, with the arrays it is given: the value returned and
    the arrays afterwards. *)
Definition run (P : prog) (f : cfun) (d n : nat) (args : list (cty * Z)) (mem : list (string * (cty * list (option Z)))) : res (Z * list (string * (cty * list (option Z)))) :=
  match exec (types P) (calls P d) n (f_body f) (mkst (declare f args) mem) with
  | Ret v st => Val (cast (fst v) (f_ret f) (snd v), arrs st)
  | Out => Fuel
  | _ => UB
  end.

(** 6.5/2: what one operand changes the other must not use.  Then the order in which
    they are evaluated makes no difference. *)
Fixpoint uses (x : string) (e : expr) : bool :=
  match e with
  | EInt _ _ => false
  | EVar y | EPre y | EPost y => String.eqb x y
  | EIdx _ a | ENot a | ECast _ a => uses x a
  | EBin _ a b | EAnd a b | EOr a b => uses x a || uses x b
  | ECond c a b => uses x c || uses x a || uses x b
  | EAsg y a | EOp _ y a => String.eqb x y || uses x a
  | ECall _ _ l => existsb (uses x) l
  end.
Fixpoint sets (e : expr) : list string :=
  match e with
  | EInt _ _ | EVar _ => []
  | EPre y | EPost y => [y]
  | EIdx _ a | ENot a | ECast _ a => sets a
  | EBin _ a b | EAnd a b | EOr a b => sets a ++ sets b
  | ECond c a b => sets c ++ sets a ++ sets b
  | EAsg y a | EOp _ y a => y :: sets a
  | ECall _ _ l => flat_map sets l
  end.
Definition apart (a b : expr) : bool := forallb (fun x => negb (uses x b)) (sets a) && forallb (fun x => negb (uses x a)) (sets b).
Fixpoint all_apart (l : list expr) : bool := match l with [] => true | a :: l => forallb (apart a) l && all_apart l end.
Fixpoint sequenced (e : expr) : bool :=
  match e with
  | EInt _ _ | EVar _ | EPre _ | EPost _ => true
  | EIdx _ a | ENot a | ECast _ a => sequenced a
  | EBin _ a b => sequenced a && sequenced b && apart a b
  | EAnd a b | EOr a b => sequenced a && sequenced b
  | ECond c a b => sequenced c && sequenced a && sequenced b
  | EAsg y a | EOp _ y a => sequenced a && negb (existsb (String.eqb y) (sets a))
  | ECall _ _ l => forallb sequenced l && all_apart l
  end.
Fixpoint all_sequenced (s : stmt) : bool :=
  match s with
  | SSkip | SBreak | SContinue => true
  | SExp e | SReturn e => sequenced e
  | SStore _ i e => sequenced i && sequenced e && apart i e
  | SMove _ d s n => forallb sequenced (n :: d ++ s) && all_apart (n :: d ++ s)
  | SSeq a b => all_sequenced a && all_sequenced b
  | SIf c a b => sequenced c && all_sequenced a && all_sequenced b
  | SLoop c a b => sequenced c && all_sequenced a && all_sequenced b
  end.

(** Nothing is written to an array. *)
Fixpoint reads_only (s : stmt) : bool :=
  match s with
  | SStore _ _ _ | SMove _ _ _ _ => false
  | SSeq a b | SIf _ a b | SLoop _ a b => reads_only a && reads_only b
  | _ => true
  end.

(** C's notation.  A string is a variable, a number an [int]. *)
Definition int (z : Z) : expr := EInt I32 z.
Coercion EVar : string >-> expr.
Coercion int : Z >-> expr.
Declare Scope c_scope.
Delimit Scope c_scope with c.
Bind Scope c_scope with expr stmt.
Notation "a + b" := (EBin Add a b) : c_scope.
Notation "a - b" := (EBin Sub a b) : c_scope.
Notation "a * b" := (EBin Mul a b) : c_scope.
Notation "a / b" := (EBin Div a b) : c_scope.
Notation "a 'mod' b" := (EBin Mod a b) : c_scope.
Notation "a << b" := (EBin Shl a b) (at level 55, left associativity) : c_scope.
Notation "a >> b" := (EBin Shr a b) (at level 55, left associativity) : c_scope.
Notation "a < b" := (EBin Lt a b) : c_scope.
Notation "a <= b" := (EBin Le a b) : c_scope.
Notation "a > b" := (EBin Gt a b) : c_scope.
Notation "a >= b" := (EBin Ge a b) : c_scope.
Notation "a == b" := (EBin Eq a b) (at level 72, no associativity) : c_scope.
Notation "a != b" := (EBin Ne a b) (at level 72, no associativity) : c_scope.
Notation "a 'AND' b" := (EAnd a b) (at level 74, left associativity) : c_scope.
Notation "a 'OR' b" := (EOr a b) (at level 76, left associativity) : c_scope.
Notation "! a" := (ENot a) (at level 35, right associativity) : c_scope.
Notation "c ? a : b" := (ECond c a b) (at level 78, a at level 77, right associativity) : c_scope.
Notation "a @ i" := (EIdx a i) (at level 30, no associativity) : c_scope.
Notation "x <- a" := (SExp (EAsg x a)) (at level 80, no associativity) : c_scope.
Notation "x += a" := (SExp (EOp Add x a)) (at level 80, no associativity) : c_scope.
Notation "x *= a" := (SExp (EOp Mul x a)) (at level 80, no associativity) : c_scope.
Notation "x /= a" := (SExp (EOp Div x a)) (at level 80, no associativity) : c_scope.
Notation "x %= a" := (SExp (EOp Mod x a)) (at level 80, no associativity) : c_scope.
Notation "a & b" := (EBin BAnd a b) (at level 73, left associativity) : c_scope.
Notation "a .| b" := (EBin BOr a b) (at level 73, left associativity) : c_scope.
Notation "s ;; t" := (SSeq s t) (at level 90, right associativity) : c_scope.
Notation "'when' ( c ) s" := (SIf c s SSkip) (at level 85, s at level 85) : c_scope.
Notation "'test' ( c ) s 'else' t" := (SIf c s t) (at level 85, s at level 84, t at level 85) : c_scope.
Notation "'for_' ( a ; c ; b ) s" := (SSeq a (SLoop c b s)) (at level 85, s at level 85) : c_scope.
