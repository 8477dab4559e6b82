(** common/accessors.go: the setters and getters of the attribute header, the
    value types, the nfgen header and the attribute payload.  A NfValue8/16/32 is
    its value. *)
From Verif Require Export Model.Common.

(* accessors.go:6-8 *)
Definition SetNfaType (r : nfattr) (t : Z) : nfattr := mkAttr (a_len r) t.
(* accessors.go:11-13 *)
Definition SetNfaLen (r : nfattr) (l : Z) : nfattr := mkAttr l (a_type r).
(* accessors.go:38-40 *)
Definition GetNfaType (r : nfattr) : Z := a_type r.
(* accessors.go:43-45 *)
Definition GetNfaLen (r : nfattr) : Z := a_len r.
(* accessors.go:16-18 *)
Definition Set8Value (r : Z) (v : Z) : Z := v.
(* accessors.go:21-23 *)
Definition Set16Value (r : Z) (v : Z) : Z := v.
(* accessors.go:33-35 *)
Definition Set32Value (r : Z) (v : Z) : Z := v.
(* accessors.go:48-50 *)
Definition Get8Value (r : Z) : Z := r.
(* accessors.go:53-55 *)
Definition Get16Value (r : Z) : Z := r.
(* accessors.go:58-60 *)
Definition Get32Value (r : Z) : Z := r.
(* accessors.go:26-30: a fresh array of b zero bytes *)
Definition SetNetlinkData (h : heap) (b : Z) : heap * slice := alloc h (gmake b) 0.
(* accessors.go:63-65 *)
Definition GetNetlinkData (d : slice) : slice := d.
(* accessors.go:68-70 *)
Definition GetNfgenFamily (g : nfgenmsg) : Z := g_fam g.
(* accessors.go:73-75 *)
Definition GetNfgenVersion (g : nfgenmsg) : Z := g_ver g.
(* accessors.go:78-80 *)
Definition GetNfgenResID (g : nfgenmsg) : Z := g_res g.
