(** * Specification of the printed table of results. *)

From Coq Require Import List ZArith Reals Bool Arith String Ascii.
Import ListNotations.
From Verif Require Import Py.
Local Open Scope nat_scope.

Definition chars (s : string) : list ascii := list_ascii_of_string s.

(** A text of digits, and the number that it denotes. *)
Definition digits (s : string) : Prop := forall c, In c (chars s) -> 48 <= nat_of_ascii c <= 57.
Definition denotes (s : string) : nat := fold_left (fun a c => 10 * a + (nat_of_ascii c - 48)) (chars s) 0.

(** [s] is a number with three decimals, [n] thousandths: digits, without useless zeros,
    a point and three digits. *)
Definition thousandths (s : string) (n : nat) : Prop :=
  exists a b, s = (a ++ "." ++ b)%string /\ digits a /\ digits b /\ a <> ""%string /\ String.length b = 3 /\ denotes (a ++ b) = n /\
  (forall a', a = ("0" ++ a')%string -> a' = ""%string).
(** [n] thousandths is the nearest to [x]; the even one if two are. *)
Definition nearest3 (x : R) (n : nat) : Prop :=
  (Rabs (x * 1000 - INR n) <= 1 / 2)%R /\ ((Rabs (x * 1000 - INR n) = 1 / 2)%R -> Nat.Even n).
(** [s] shows the number [x], with three decimals. *)
Definition shows (s : string) (x : R) : Prop := exists n, thousandths s n /\ nearest3 x n.

(** Nothing but spaces. *)
Definition blank (s : string) : Prop := forall c, In c (chars s) -> c = " "%char.
(** [s] is [text] in the middle of [width] characters. *)
Definition in_middle (width : nat) (text s : string) : Prop :=
  exists l r, s = (l ++ text ++ r)%string /\ blank l /\ blank r /\ String.length s = width /\
  String.length l <= S (String.length r) /\ String.length r <= S (String.length l).
(** The columns of a line, each [width] characters wide, with a space between them. *)
Definition columns (width : nat) (texts : list string) (s : string) : Prop :=
  S (String.length s) = List.length texts * S width /\
  (forall c t, nth_error texts c = Some t -> in_middle width t (substring (c * S width) width s)) /\
  (forall c, S c < List.length texts -> substring (c * S width + width) 1 s = " "%string).

(** A cell: the average and the deviation of the numbers [xs], that are parts of 1. *)
From Verif Require Import nd_spec logger_model experiment_model experiment_spec figures_spec.
Definition summary (xs : list R) (t : string) : Prop :=
  exists m d a b n k, average_of xs m /\ deviation_of xs m d /\ t = (a ++ " (" ++ b ++ ")")%string /\
    thousandths a n /\ nearest3 m n /\ n <= 1000 /\ thousandths b k /\ nearest3 d k /\ k <= 500.
(** The line for the modalities [m1] and [m2] of a test, compared in [cmp]. *)
Definition line_for (x : experiment) (p : prepared) (splits : list (list nat * list nat)) (c : (nat * nat) * option nat) (names cells : list string) : Prop :=
  let '((m1, m2), cmp) := c in
  names = [mod_name (x_mods x) m1; mod_name (x_mods x) m2; match cmp with None => "internal"%string | Some k => mod_name (x_mods x) k end] /\
  Forall2 (fun s t => exists xs, Forall2 (two_score x p m1 m2 cmp s) splits xs /\ summary xs t) [""; "_frob"; "_cosine"]%string cells.
(** The lines of the table of two modalities. *)
Definition shown_lines (x : experiment) : list ((nat * nat) * option nat) :=
  list_prod [(0, 1); (1, 0)] (None :: map Some (seq 0 (List.length (x_mods x)))).
(** A line that only separates. *)
Definition separator (s : string) : Prop := forall c, In c (chars s) -> c = "-"%char \/ c = " "%char.
