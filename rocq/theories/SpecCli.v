(** What the command line tool is supposed to do. *)
From Verif Require Import Base Uenv SpecLookup SpecUnicode SpecRegister Lookup Api Register Cli.

(** Conversion to UTF-8 yields C strings. *)
Definition locale_ok (L : locale) : Prop := forall x s, from_locale L x = Some s -> c_string s /\ zlen s < two64.

(** The flags that the options ask for: -T goes before -N, that before --no-tr46;
    non-transitional processing is the default. *)
Definition wanted (a : options) (f : Z) : Prop :=
  0 <= f < 256 /\ opt_nfc f = true /\ opt_roundtrip f = false /\ opt_unassigned f = false /\
  (opt_transitional f = true <-> tr46t_given a = true) /\
  (opt_nontransitional f = true <-> tr46t_given a = false /\ (tr46nt_given a = true \/ no_tr46_given a = false)) /\
  (opt_no_tr46 f = true <-> tr46t_given a = false /\ tr46nt_given a = false /\ no_tr46_given a = true) /\
  (opt_std3 f = true <-> usestd3asciirules_given a = true) /\
  (opt_no_roundtrip f = true <-> no_alabelroundtrip_given a = true).

(** [content x s]: [s] is the string in the buffer [x] without a newline at its end. *)
Definition content (x s : list Z) : Prop :=
  exists t, (x = t \/ exists r, x = t ++ 0 :: r) /\ ~ In 0 t /\ (t = s ++ [10] \/ (t = s /\ forall u, s <> u ++ [10])).

(** The lines of a text. *)
Inductive lines : list Z -> list (list Z) -> Prop :=
| li_end : lines [] []
| li_line : forall l r ls, ~ In 10 l -> lines r ls -> lines (l ++ 10 :: r) ((l ++ [10]) :: ls)
| li_last : forall l, l <> [] -> ~ In 10 l -> lines l [l].

(** The library call for a string. *)
Definition convert (w : world) (a : options) (f : Z) (s : list Z) : result :=
  if register_given a then register_ul (w_uenv w) (w_locale w) (Some s) None (Some None) f
  else if decode_given a then to_unicode_lzlz (w_locale w) (w_junk w) (Some s) (Some None) 0
  else idn2_lookup_ul (w_uenv w) (w_locale w) (Some s) (Some None) f.
Definition tag_of (a : options) : tag := if register_given a then Tregister else if decode_given a then Tdecode else TtoAscii.

(** The answer to one string. *)
Inductive answer (w : world) (a : options) (f : Z) : list Z -> list Z -> Prop :=
| an_warranty : answer w a f [115;104;111;119;32;119] (w_warranty w)
| an_conditions : answer w a f [115;104;111;119;32;99] (w_conditions w)
| an_result : forall s r, s <> [115;104;111;119;32;119] -> s <> [115;104;111;119;32;99] ->
    convert w a f s = Ok (IDN2_OK, Some (Some r)) -> answer w a f s r.

(** [refused w a f s rc]: the library refuses [s]. *)
Definition refused (w : world) (a : options) (f : Z) (s : list Z) (rc : Z) : Prop :=
  s <> [115;104;111;119;32;119] /\ s <> [115;104;111;119;32;99] /\ rc <> IDN2_OK /\ convert w a f s = Ok (rc, Some None).

(** A line for each input up to the first that is refused. *)
Inductive session (w : world) (a : options) (f : Z) : list (list Z) -> list Z -> option Z -> Prop :=
| se_end : session w a f [] [] None
| se_line : forall x s r xs o e, content x s -> answer w a f s r -> session w a f xs o e -> session w a f (x :: xs) (r ++ 10 :: o) e
| se_stop : forall x s rc xs, content x s -> refused w a f s rc -> session w a f (x :: xs) [] (Some rc).

(** What appears on standard output, and the complaints. *)
Definition stdout (ev : list event) : list Z := concat (map (fun e => match e with Stdout s => s | _ => [] end) ev).
Definition complaints (ev : list event) : list (tag * Z) := concat (map (fun e => match e with Complaint t rc => [(t, rc)] | _ => [] end) ev).

(** The codes that the tool complains about. *)
Definition cli_codes : list Z := IDN2_ICONV_FAIL :: lookup_errors ++ unicode_errors ++ register_errors.

(** The same options with other names on the command line. *)
Definition with_inputs (a : options) (l : list (list Z)) : options :=
  Options (version_given a) (help_given a) (quiet_given a) (debug_given a) (register_given a) (decode_given a) (tr46t_given a)
    (tr46nt_given a) (no_tr46_given a) (usestd3asciirules_given a) (no_alabelroundtrip_given a) l.
