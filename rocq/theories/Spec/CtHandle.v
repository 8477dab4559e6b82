(** The exported update calls of package conntrack, in any order, and the descriptors
    that are open at a point of a run. *)
From Verif Require Export Spec.Descriptors Model.Conntrack.

Inductive ct_call :=
| CUpdateMark (ipSrc ipDst : bytes) (protonum srcport dstport newmark : Z)
| CUpdateMarkAvailable (flows : list flow) (ipSrc ipDst : bytes) (protonum srcport dstport newmark : Z)
| CUpdateLabel (flows : list flow) (ipSrc ipDst : bytes) (protonum srcport dstport newlabels : Z).
Definition ct_use (m : endian) (c : ct_call) : MC unit :=
  match c with
  | CUpdateMark s d p sp dp k => let! _ := ConntrackTableUpdateMark m s d p sp dp k in ret tt
  | CUpdateMarkAvailable fs s d p sp dp k =>
      let! _ := ConntrackTableUpdateMarkForAvailableFlow m fs s d p sp dp k in ret tt
  | CUpdateLabel fs s d p sp dp k => let! _ := ConntrackTableUpdateLabel m fs s d p sp dp k in ret tt
  end.
Fixpoint ct_uses (m : endian) (cs : list ct_call) (e : env) (w : world unit) : world unit :=
  match cs with
  | [] => w
  | c :: cs' => ct_uses m cs' e (snd (ct_use m c e w))
  end.

(** at the end of [tr], [fd] was returned by a netlink socket call and has not been closed since *)
Definition open_at_end (tr : list event) (fd : Z) : Prop :=
  exists before r after, tr = before ++ (KSocket 16 3 12, r) :: after /\
    r_err r = None /\ r_val r = fd /\ forall r', ~ In (KClose fd, r') after.
(** every interaction in [tr] is on a descriptor open at that point *)
Definition only_open_descriptors (tr : list event) : Prop :=
  forall before c r after fd,
    tr = before ++ (c, r) :: after -> descriptor c = Some fd -> open_at_end before fd.
Definition binds_succeed (tr : list event) : Prop :=
  forall fd fam r, In (KBind fd fam, r) tr -> r_err r = None.
