(** Concrete packets used to show that hypotheses can be met. *)
From Verif Require Import Go.Heap.

(** IPv4 TCP 10.0.0.1:1000 -> 10.0.0.2:80, ACK|PSH, 4 bytes of options and 4 of
    data, valid header checksum *)
Definition tcp4_sample : bytes :=
  [69;0;0;48; 18;52;64;0; 64;6;20;146; 10;0;0;1; 10;0;0;2;
   3;232;0;80; 0;0;0;1; 0;0;0;2; 96;24;1;0; 0;0;0;0; 34;4;7;9; 97;98;99;100].
(** IPv4 UDP 10.0.0.1:53 -> 10.0.0.2:1000 with 4 bytes of data *)
Definition udp4_sample : bytes :=
  [69;0;0;32; 0;7;0;0; 64;17;102;196; 10;0;0;1; 10;0;0;2; 0;53;3;232; 0;12;0;0; 1;2;3;4].
(** IPv6 UDP 2001:db8::1:53 -> 2001:db8::2:1000 with 4 bytes of data *)
Definition udp6_sample : bytes :=
  [96;0;0;0; 0;12;17;64;
   32;1;13;184;0;0;0;0;0;0;0;0;0;0;0;1; 32;1;13;184;0;0;0;0;0;0;0;0;0;0;0;2;
   0;53;3;232; 0;12;0;0; 1;2;3;4].
(** the slice holding all of a byte string in an array with [spare] more bytes *)
Definition held (b : bytes) (spare : nat) : heap * slice :=
  ([b ++ repeat 170 spare], mkSl 0 0 (length b) (length b + spare)).
