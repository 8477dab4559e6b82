(** Every way a program can use a queue handle, in any order. *)
From Verif Require Export Model.NfQueue.

(** the exported methods of the handle (nfqueue/interfaces.go:9-40), with their arguments *)
Inductive handle_call :=
| HOpen | HUnbindPf | HBindPf
| HCreateQueue (num : Z) (cb : option callback) (ecb : bool) (priv : Z)
| HSetMode (mode packetSize : Z) | HSetQueueMaxLen (queuelen : Z)
| HDestroyQueue | HClose | HStopQueue
| HSetVerdict (verdict packetLen packetID : Z) (packet : slice)
| HSetVerdict2 (verdict mark packetLen packetID : Z) (packet : slice)
| HRecv (fuel : nat)
| HProcessPackets (n fuel : nat)
| HGetNotificationChannel.
Definition use (m : endian) (grow : nat -> nat -> nat) (c : handle_call) : MQ unit :=
  match c with
  | HOpen => let! _ := NfqOpen in ret tt
  | HUnbindPf => let! _ := UnbindPf m in ret tt
  | HBindPf => let! _ := BindPf m in ret tt
  | HCreateQueue num cb ecb priv => let! _ := CreateQueue m num cb ecb priv in ret tt
  | HSetMode mode sz => let! _ := NfqSetMode m mode sz in ret tt
  | HSetQueueMaxLen n => let! _ := NfqSetQueueMaxLen m n in ret tt
  | HDestroyQueue => let! _ := NfqDestroyQueue m in ret tt
  | HClose => NfqClose
  | HStopQueue => let! _ := StopQueue m in ret tt
  | HSetVerdict v pl id p => SetVerdict m grow v pl id p
  | HSetVerdict2 v mk pl id p => SetVerdict2 m grow v mk pl id p
  | HRecv fuel => let! _ := Recv fuel m in ret tt
  | HProcessPackets n fuel => ProcessPackets n fuel m grow
  | HGetNotificationChannel => let! _ := GetNotificationChannel in ret tt
  end.
(** A program's uses of the handle one after the other; it goes on after any outcome (a
    panic may be recovered by the program, a loop that has not ended may be observed). *)
Fixpoint uses (m : endian) (grow : nat -> nat -> nat) (cs : list handle_call) (e : env)
  (w : world nfq) : world nfq :=
  match cs with
  | [] => w
  | c :: cs' => uses m grow cs' e (snd (use m grow c e w))
  end.
