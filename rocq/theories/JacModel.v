(** * Model of utilities/joint_action_counter.py

    Files are ASCII text (the code decodes UTF-8 and ignores what it cannot decode).  The command line and the
    number of printed decimals are not modelled: the result is the exact fraction. *)
From Coq Require Import Ascii QArith.
From Verif Require Import LogicModel OcolModel Prelude.
Open Scope string_scope.
Open Scope list_scope.
Open Scope nat_scope.

(** ** String methods *)

(** [str.lower] on ASCII *)
Definition lower_char (c : ascii) : ascii :=
  let n := nat_of_ascii c in if (65 <=? n) && (n <=? 90) then ascii_of_nat (n + 32) else c.
Fixpoint lower (s : string) : string :=
  match s with "" => "" | String c s' => String (lower_char c) (lower s') end.

(** [str.strip()] *)
Fixpoint strip_right (s : string) : string :=
  match s with
  | "" => ""
  | String c s' => match strip_right s' with
                   | "" => if is_space c then "" else String c ""
                   | t => String c t
                   end
  end.
Definition strip_both (s : string) : string := strip_right (drop_while is_space s).

(** [str.split()]: [current] is the word being read. *)
Fixpoint split_words (current s : string) : list string :=
  match s with
  | "" => if Prelude.eqb current "" then [] else [current]
  | String c s' =>
      if is_space c then (if Prelude.eqb current "" then split_words "" s' else current :: split_words "" s')
      else split_words (current ++ String c "")%string s'
  end.

(** [s.endswith(c)] for one character *)
Fixpoint ends_in (d : ascii) (s : string) : bool :=
  match s with "" => false | String c "" => is_char d c | String _ s' => ends_in d s' end.

(** [s[n:]] *)
Fixpoint drop (n : nat) (s : string) : string :=
  match n, s with S n', String _ s' => drop n' s' | _, _ => s end.
(** [s[:-1]] *)
Fixpoint drop_last (s : string) : string :=
  match s with "" => "" | String c "" => "" | String c s' => String c (drop_last s') end.

(** joint_action_counter.py:21 [PARENS_RE.findall]: leftmost, not overlapping matches of [\([^\)]*\)].  [current] is the
    match being read.  If there is no closing bracket any more there is no further match. *)
Fixpoint find_groups (current : option string) (s : string) : list string :=
  match s with
  | "" => []
  | String c s' =>
      match current with
      | None => find_groups (if is_char "(" c then Some "(" else None) s'
      | Some m => if is_char ")" c then (m ++ ")")%string :: find_groups None s'
                  else find_groups (Some (m ++ String c "")%string) s'
      end
  end.

(** ** Counting *)

(** joint_action_counter.py:24-32 [is_nop_token] *)
Definition is_nop_token (tok : string) : bool :=
  let inner := strip_both tok in
  let inner := if String.prefix "(" inner && ends_in ")" inner then drop_last (drop 1 inner) else inner in
  let inner := lower (String.concat " " (split_words "" inner)) in
  memb inner ["nop"; "nop)"; "(nop"; "no-op"; "noop"] || String.prefix "nop " inner.

(** joint_action_counter.py:50-60: the actions of a line *)
Fixpoint filter_tokens (line : string) (filtered tokens : list string) : list string :=
  match tokens with
  | [] => filtered
  | t :: ts =>
      let inner := lower (strip_both (drop_last (drop 1 t))) in
      if String.prefix "operators:" inner then
        let rest := match String.index 0 "operators:" (lower line) with
                    | Some i => drop (i + 10) line
                    | None => drop 9 line
                    end in
        find_groups None rest
      else filter_tokens line (filtered ++ [t]) ts
  end.

(** joint_action_counter.py:40-67: one line; [(joint, one)] are the counters *)
Definition analyze_line (counters : nat * nat) (raw : string) : nat * nat :=
  let line := strip_both raw in
  let (joint, one) := counters in
  if negb (String.prefix "(operators:" line) then (joint, one)
  else
    let filtered := filter_tokens line [] (find_groups None line) in
    match filtered with
    | [] => (S joint, one)
    | _ => if length (filter (fun t => negb (is_nop_token t)) filtered) =? 1 then (S joint, S one) else (S joint, one)
    end.

(** Universal newlines of a file in text mode: [\r\n] and [\r] are [\n]. *)
Definition newline : ascii := "010".
Definition return_ : ascii := "013".
Fixpoint newlines (s : string) : string :=
  match s with
  | "" => ""
  | String c s' =>
      if is_char return_ c then
        match s' with
        | String d s'' => if is_char newline d then String newline (newlines s'') else String newline (newlines s')
        | "" => String newline ""
        end
      else String c (newlines s')
  end.
(** Iterating over a file: the lines, here without their ends, which [strip] removes. *)
Fixpoint file_lines (current s : string) : list string :=
  match s with
  | "" => if Prelude.eqb current "" then [] else [current]
  | String c s' => if is_char newline c then current :: file_lines "" s' else file_lines (current ++ String c "")%string s'
  end.

(** joint_action_counter.py:35-69 [analyze_file] *)
Definition analyze_file (text : string) : nat * nat :=
  fold_left analyze_line (file_lines "" (newlines text)) (0, 0).

(** ** The directory *)

(** An entry of the directory: a directory, or a file with its text. *)
Inductive entry := Directory | TextFile (text : string).

(** [one / joint] if [joint] else [0.0] *)
Definition fraction (one joint : nat) : Q :=
  match joint with 0 => 0%Q | S j => Qmake (Z.of_nat one) (Pos.of_succ_nat j) end.

(** A printed line of [--verbose]: the file, the two counters and their fraction. *)
Record file_line := mkLine { fl_name : string; fl_joint : nat; fl_one : nat; fl_fraction : Q }.

(** joint_action_counter.py:84-101 *)
Fixpoint count_files (d : list (string * entry)) (names : list string) (joint one : nat) : list file_line * (nat * nat) :=
  match names with
  | [] => ([], (joint, one))
  | p :: ps =>
      match dict_get d p with
      | Some (TextFile text) =>
          let (jl, o) := analyze_file text in
          let (rows, totals) := count_files d ps (joint + jl) (one + o) in
          (mkLine p jl o (fraction o jl) :: rows, totals)
      | _ => count_files d ps joint one
      end
  end.

(** joint_action_counter.py:72-105 [main]: the lines printed with [--verbose], and the fraction printed last.
    [matches] is the pattern. *)
Definition joint_action_rate (matches : string -> bool) (d : list (string * entry)) : list file_line * Q :=
  let files := sorted_names (filter matches (dict_keys d)) in
  match files with
  | [] => ([], 0%Q)
  | _ => let (rows, totals) := count_files d files 0 0 in (rows, fraction (snd totals) (fst totals))
  end.
