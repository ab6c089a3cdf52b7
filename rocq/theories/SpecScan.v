(** The format of the data files, after UAX #44 section 4.2 and the header of
    idna-tables-properties.csv: what a text file says. *)
From Coq Require Import String Ascii.
From Verif Require Import Base DataTypes.
Local Open Scope list_scope.
Local Open Scope Z_scope.

Definition bytes_of (s : string) : list Z := map (fun c => Z.of_nat (nat_of_ascii c)) (list_ascii_of_string s).

(** Hexadecimal digits of either case, and numbers of 32 bits made of them. *)
Definition hexdigit (c d : Z) : Prop :=
  (0 <= d <= 9 /\ c = 48 + d) \/ (10 <= d <= 15 /\ (c = 55 + d \/ c = 87 + d)).
Inductive hexnum : list Z -> Z -> Prop :=
| hex_one : forall c d, hexdigit c d -> hexnum [c] d
| hex_more : forall l v c d, hexnum l v -> hexdigit c d -> 16 * v + d < 2 ^ 32 -> hexnum (l ++ [c]) (16 * v + d).

(** A code point or a range of them. *)
Inductive range_text (sep : list Z) : list Z -> Z -> Z -> Prop :=
| range_one : forall l c, hexnum l c -> range_text sep l c c
| range_two : forall a b lo hi, hexnum a lo -> hexnum b hi -> range_text sep (a ++ sep ++ b) lo hi.

(** Space, tab and, at the end of a line, carriage return. *)
Definition blanks (l : list Z) : Prop := Forall (fun c => c = 32 \/ c = 9 \/ c = 13) l.
Definition padded (x t : list Z) : Prop := exists a b, blanks a /\ blanks b /\ t = a ++ x ++ b.

(** Code points with blanks between them. *)
Inductive sequence : list Z -> list Z -> Prop :=
| seq_one : forall l c, hexnum l c -> sequence l [c]
| seq_more : forall l c b r m, hexnum l c -> blanks b -> b <> [] -> sequence r m -> sequence (l ++ b ++ r) (c :: m).

(** What may follow the fields that matter: nothing, a comment or, if [more], further fields. *)
Definition rest_of_line (more : bool) (t : list Z) : Prop :=
  t = [] \/ (exists r, t = 35 :: r) \/ (more = true /\ exists r, t = 59 :: r).

Definition status_name (s : status) : string :=
  match s with
  | Valid => "valid"
  | Mapped => "mapped"
  | Ignored => "ignored"
  | Deviation => "deviation"
  | Disallowed => "disallowed"
  | Std3Mapped => "disallowed_STD3_mapped"
  | Std3Valid => "disallowed_STD3_valid"
  end.

Definition dots : list Z := [46; 46].

(** Lines of IdnaMappingTable.txt. *)
Inductive idna_line : list Z -> list row -> Prop :=
| idna_unmapped : forall l f1 f2 t lo hi st, range_text dots l lo hi -> padded l f1 -> padded (bytes_of (status_name st)) f2 ->
    rest_of_line false t -> idna_line (f1 ++ 59 :: f2 ++ t) [Row lo hi st []]
| idna_empty : forall l f1 f2 f3 t lo hi st, range_text dots l lo hi -> padded l f1 -> padded (bytes_of (status_name st)) f2 ->
    blanks f3 -> rest_of_line true t -> idna_line (f1 ++ 59 :: f2 ++ 59 :: f3 ++ t) [Row lo hi st []]
| idna_mapped : forall l f1 f2 x f3 t lo hi st m, range_text dots l lo hi -> padded l f1 -> padded (bytes_of (status_name st)) f2 ->
    sequence x m -> padded x f3 -> rest_of_line true t -> idna_line (f1 ++ 59 :: f2 ++ 59 :: f3 ++ t) [Row lo hi st m].

(** Lines of DerivedNormalizationProps.txt: NFC_QC with the values N and M;
    other properties, written with letters, digits and '_'. *)
Definition word (x : list Z) : Prop :=
  Forall (fun c => 48 <= c <= 57 \/ 65 <= c <= 90 \/ 97 <= c <= 122 \/ c = 95) x.
Definition qc_letter (q : qc) : Z := match q with QcNo => 78 | QcMaybe => 77 end.
Inductive props_line : list Z -> list qrow -> Prop :=
| props_qc : forall l f1 f2 f3 t lo hi q, range_text dots l lo hi -> padded l f1 -> padded (bytes_of "NFC_QC") f2 ->
    padded [qc_letter q] f3 -> rest_of_line true t -> props_line (f1 ++ 59 :: f2 ++ 59 :: f3 ++ t) [Qrow lo hi q]
| props_other : forall l f1 x f2 t lo hi, range_text dots l lo hi -> padded l f1 -> word x -> x <> bytes_of "NFC_QC" -> padded x f2 ->
    rest_of_line true t -> props_line (f1 ++ 59 :: f2 ++ t) [].

(** Lines of the CSV file. *)
Definition prop_name (p : prop) : string :=
  match p with
  | PVALID => "PVALID" | CONTEXTJ => "CONTEXTJ" | CONTEXTO => "CONTEXTO"
  | DISALLOWED => "DISALLOWED" | UNASSIGNED => "UNASSIGNED"
  end.
Inductive csv_line : list Z -> list prow -> Prop :=
| csv_row : forall l lo hi p t, range_text [45] l lo hi ->
    csv_line (l ++ 44 :: bytes_of (prop_name p) ++ 44 :: t) [Prow lo hi p].

(** Blank lines and comments. *)
Definition ignorable (l : list Z) : Prop := blanks l \/ exists b r, blanks b /\ l = b ++ 35 :: r.
Inductive or_ignorable {A} (line : list Z -> list A -> Prop) : list Z -> list A -> Prop :=
| a_line : forall l r, line l r -> or_ignorable line l r
| no_line : forall l, ignorable l -> or_ignorable line l [].

(** Lines are not longer than [max] bytes and hold neither zero nor newline; the
    last one may lack its newline. *)
Definition line_ok (max : Z) (l : list Z) : Prop := Forall (fun c => c <> 0 /\ c <> 10) l /\ zlen l <= max.
Inductive file_of {A} (max : Z) (line : list Z -> list A -> Prop) : list Z -> list A -> Prop :=
| file_end : file_of max line [] []
| file_last : forall l r, l <> [] -> line_ok max l -> line l r -> file_of max line l r
| file_line : forall l r t rs, line_ok max l -> line l r -> file_of max line t rs -> file_of max line (l ++ 10 :: t) (r ++ rs).

Definition idna_file (max : Z) : list Z -> list row -> Prop := file_of max (or_ignorable idna_line).
Definition props_file (max : Z) : list Z -> list qrow -> Prop := file_of max (or_ignorable props_line).
Definition csv_file (max : Z) (t : list Z) (rows : list prow) : Prop :=
  exists h r, line_ok max h /\ (exists x, h = bytes_of "Codepoint,Property," ++ x) /\ t = h ++ 10 :: r /\ file_of max csv_line r rows.
