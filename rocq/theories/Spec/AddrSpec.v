(** Which texts name an IPv4 address (C35, C71): four decimal numbers up to 255,
    separated by dots.  Characters are their codes: '0'..'9' = 48..57, '.' = 46,
    ':' = 58. *)
From Verif Require Export Go.Base Spec.CtSpec.

Definition is_number (t : bytes) : Prop := t <> [] /\ Forall (fun c => 48 <= c <= 57) t.
Definition decimal (t : bytes) : Z := fold_left (fun n c => 10 * n + (c - 48)) t 0.
(** [s] is the dotted text of the address [four] *)
Definition dotted_quad (s four : bytes) : Prop :=
  exists a b c d, Forall is_number [a; b; c; d] /\ s = a ++ [46] ++ b ++ [46] ++ c ++ [46] ++ d /\
    four = [decimal a; decimal b; decimal c; decimal d] /\ Forall (fun n => n <= 255) four.
