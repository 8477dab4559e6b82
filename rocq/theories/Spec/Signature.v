(** The signature that marks UDP control packets. *)
From Coq Require Import ZArith List Ascii String.
Definition control_signature : list Z :=
  map (fun c => Z.of_nat (nat_of_ascii c)) (list_ascii_of_string "n30njxq7bmiwr6dtxq").
