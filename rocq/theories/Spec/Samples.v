(** Concrete environments used to show that hypotheses can be met. *)
From Verif Require Import Model.Sys Spec.Requests.

(** a 36-byte little-endian NLMSG_ERROR with the given code byte string *)
Definition nlmsg_error (code : bytes) : bytes :=
  [36;0;0;0; 2;0; 0;0; 0;0;0;0; 0;0;0;0] ++ code ++ [28;0;0;0; 2;3; 5;0; 0;0;0;0; 0;0;0;0].
Definition resp_ok : resp := mkResp None 0 [] false.
(** a kernel that accepts everything; sockets get descriptor 7 *)
Definition kernel_acks : env := fun _ c =>
  match c with
  | KSocket _ _ _ => mkResp None 7 [] false
  | KRecvfrom _ _ _ => mkResp None 0 (nlmsg_error [0;0;0;0]) false
  | _ => resp_ok
  end.
(** number of receives so far *)
Definition receives (tr : list event) : nat :=
  length (filter (fun ev => match fst ev with KRecvfrom _ _ _ => true | _ => false end) tr).
(** acknowledges the first n requests and answers EPERM (-1) afterwards *)
Definition kernel_acks_first (n : nat) : env := fun tr c =>
  match c with
  | KSocket _ _ _ => mkResp None 7 [] false
  | KRecvfrom _ _ _ =>
      mkResp None 0 (nlmsg_error (if (receives tr <? n)%nat then [0;0;0;0] else [255;255;255;255])) false
  | _ => resp_ok
  end.
(** the socket can be created but not bound *)
Definition kernel_no_bind : env := fun _ c =>
  match c with
  | KSocket _ _ _ => mkResp None 7 [] false
  | KBind _ _ => mkResp (Some 98) 0 [] false
  | _ => resp_ok
  end.
(** no socket can be created *)
Definition kernel_no_socket : env := fun _ c =>
  match c with KSocket _ _ _ => mkResp (Some 24) 0 [] false | _ => resp_ok end.

(** ** A kernel that delivers NFQUEUE packets *)
Definition packet_receives (tr : list event) : nat :=
  length (filter (fun ev => match fst ev with KRecvfrom _ _ fl => fl =? 256 | _ => false end) tr).
(** requests are acknowledged; the packet loop's receives yield the datagrams
    [ds] one after the other, then the context is done *)
Definition kernel_delivers (ds : list (option bytes)) : env := fun tr c =>
  match c with
  | KSocket _ _ _ => mkResp None 7 [] false
  | KRecvfrom _ _ fl =>
      if fl =? 256 then
        match nth (packet_receives tr) ds None with
        | Some d => mkResp None 0 d false
        | None => mkResp (Some 105) 0 [] false
        end
      else mkResp None 0 (nlmsg_error [0;0;0;0]) false
  | KCtxDone => mkResp None 0 [] (length ds <=? packet_receives tr)%nat
  | _ => resp_ok
  end.
(** packet messages for queue 42 (little-endian machine): id 258, one unknown
    attribute (type 99), an optional mark, five payload bytes *)
Definition marked_packet : bytes :=
  [64;0;0;0; 0;3; 0;0; 0;0;0;0; 0;0;0;0;  2;0;0;42;
   11;0;1;0; 2;1;0;0; 8;0;1; 0;  6;0;99;0; 1;2;0;0;  8;0;3;0; 0;0;1;7;
   9;0;10;0; 69;0;0;5;17; 0;0;0].
Definition unmarked_packet : bytes :=
  [60;0;0;0; 0;3; 0;0; 0;0;0;0; 0;0;0;0;  2;0;0;42;
   11;0;1;0; 3;1;0;0; 8;0;1; 0;  16;0;99;0; 1;2;3;4;5;6;7;8;0;0;2;5;
   9;0;10;0; 70;1;1;6;18; 0;0;0].
(** the same layout as [marked_packet] with another id and payload *)
Definition marked_packet2 : bytes :=
  [64;0;0;0; 0;3; 0;0; 0;0;0;0; 0;0;0;0;  2;0;0;42;
   11;0;1;0; 3;1;0;0; 8;0;1; 0;  6;0;99;0; 1;2;0;0;  8;0;3;0; 0;0;1;7;
   9;0;10;0; 70;1;1;6;18; 0;0;0].
