(** * Specification of the rate of joint actions with one acting agent *)
From Coq Require Import Ascii QArith.
From Verif Require Import OcolSpec JacModel Prelude.
Open Scope string_scope.
Open Scope list_scope.
Open Scope nat_scope.

Definition chars (s : string) : list ascii := list_ascii_of_string s.

(** White space *)
Definition white (c : ascii) : Prop := In (nat_of_ascii c) [9; 10; 11; 12; 13; 28; 29; 30; 31; 32].
Definition blank (s : string) : Prop := Forall white (chars s).
Definition without (d : ascii) (s : string) : Prop := ~ In d (chars s).
Definition no_brackets (s : string) : Prop := without "(" s /\ without ")" s.

(** The words of a text *)
Definition word (w : string) : Prop := w <> "" /\ Forall (fun c => ~ white c) (chars w).
Inductive fields : string -> list string -> Prop :=
| fields_none b : blank b -> fields b []
| fields_last b w : blank b -> word w -> fields (b ++ w) [w]
| fields_more b w c rest ws : blank b -> word w -> white c -> fields rest ws -> fields (b ++ w ++ String c rest) (w :: ws).

(** The same word up to capital letters *)
Definition spelled (w target : string) : Prop :=
  Forall2 (fun c d => c = d \/ (65 <= nat_of_ascii c <= 90 /\ nat_of_ascii d = nat_of_ascii c + 32)) (chars w) (chars target).

(** An agent that does nothing: the word nop, alone or with arguments, or noop or no-op alone *)
Definition idle (a : string) : Prop :=
  exists w ws, fields a (w :: ws) /\ (spelled w "nop" \/ (ws = [] /\ (spelled w "noop" \/ spelled w "no-op"))).

(** Actions in brackets, with anything but brackets around them *)
Inductive listed : list string -> string -> Prop :=
| listed_none gap : no_brackets gap -> listed [] gap
| listed_next gap a actions rest : no_brackets gap -> no_brackets a -> listed actions rest ->
    listed (a :: actions) (gap ++ "(" ++ a ++ ")" ++ rest).

(** A line with a joint action *)
Definition joint_line (actions : list string) (line : string) : Prop :=
  exists before rest after, blank before /\ blank after /\ listed actions rest /\
    line = (before ++ "(operators:" ++ rest ++ ")" ++ after)%string.
(** Any other line of a trajectory *)
Definition other_line (line : string) : Prop :=
  forall before rest, blank before -> line <> (before ++ "(operators:" ++ rest)%string.

(** Exactly one agent acts *)
Definition lone (actions : list string) : Prop :=
  exists before a after, actions = before ++ a :: after /\ ~ idle a /\ Forall idle (before ++ after).

(** The joint action of each line of a file *)
Definition holds_joint (line : string) (joint : option (list string)) : Prop :=
  match joint with Some actions => joint_line actions line | None => other_line line end.
Definition file_of (text : string) (joints : list (option (list string))) : Prop :=
  exists lines, Forall (fun l => without newline l /\ without return_ l) lines /\
    text = String.concat (String newline "") lines /\ Forall2 holds_joint lines joints.

(** Number of joint actions, and of those with one acting agent *)
Inductive counts : list (option (list string)) -> nat -> nat -> Prop :=
| counts_none : counts [] 0 0
| counts_other joints n k : counts joints n k -> counts (None :: joints) n k
| counts_lone actions joints n k : lone actions -> counts joints n k -> counts (Some actions :: joints) (S n) (S k)
| counts_not_lone actions joints n k : ~ lone actions -> counts joints n k -> counts (Some actions :: joints) (S n) k.

(** The files of a directory with the joint actions of their lines *)
Definition directory_of (matches : string -> bool) (d : list (string * entry)) (files : list (string * list (option (list string)))) : Prop :=
  NoDup (dict_keys d) /\ NoDup (map fst files) /\
  (forall p joints, In (p, joints) files -> matches p = true /\ exists text, In (p, TextFile text) d /\ file_of text joints) /\
  (forall p text, In (p, TextFile text) d -> matches p = true -> In p (map fst files)).

(** A share, which is 0 if there is nothing to share *)
Definition is_rate (part total : nat) (q : Q) : Prop :=
  (total = 0%nat -> q == 0)%Q /\ (q * inject_Z (Z.of_nat total) == inject_Z (Z.of_nat part))%Q.
Definition sum (f : file_line -> nat) (rows : list file_line) : nat := fold_right (fun r n => f r + n) 0 rows.
Definition row_of (file : string * list (option (list string))) (row : file_line) : Prop :=
  fl_name row = fst file /\ counts (snd file) (fl_joint row) (fl_one row) /\ is_rate (fl_one row) (fl_joint row) (fl_fraction row).
