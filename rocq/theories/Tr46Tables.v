(** The generated file tr46map_data.c: the result of running the generator on
    the two shipped Unicode data files ([Eval] runs the generator at compile
    time; the literal it leaves is checked against the data files, row by row,
    in Tr46Valid.v). *)
From Verif Require Import Base DataTypes DataTr46 DataNfc Gentr46.

Definition tr46_empty : tr46_tables := Tr46Tables [] [] [] [] [] [].

(** The arrays are stored in pieces of 128 elements (long list literals are
    slow to type-check). *)
Fixpoint pieces_aux {A} (l : list A) (n : nat) (cur : list A) : list (list A) :=
  match l with
  | [] => [rev_append cur []]
  | x :: r =>
      match n with
      | O => rev_append cur [] :: pieces_aux r 127 [x]
      | S n' => pieces_aux r n' (x :: cur)
      end
  end.
Definition pieces {A} (l : list A) : list (list A) := pieces_aux l 128 [].

Definition tr46_pieces : list (list Z) * list (list Z) * list (list Z) * list (list Z) * list (list Z) * list (list nfcqc) :=
  Eval vm_compute in
  let t := match gentr46map idna_rows nfcqc_rows with Some t => t | None => tr46_empty end in
  (pieces (t_flags t), pieces (t_map8 t), pieces (t_map16 t), pieces (t_map24 t),
   pieces (t_mapdata t), pieces (t_nfcqc t)).

Definition tr46_data : tr46_tables :=
  match tr46_pieces with
  | (fl, m8, m16, m24, md, nq) =>
      Tr46Tables (concat fl) (concat m8) (concat m16) (concat m24) (concat md) (concat nq)
  end.
