(** Concrete runs of the programs, and a checker of [follows]. *)
From Verif Require Import Base Uci MacAddress AppConfig Codec Session Device Pica Sys Transport CodecSpec ContextSpec InvFacts CommandFacts Demo SysSpec SysDemo DialogueSpec DialogueDemo.
From Verif Require Import SysFacts PyHost PyReaderSpec Script ScriptSpec.

Fixpoint prefixb (l l' : list bytes) : bool :=
  match l, l' with
  | [], _ => true
  | x :: l, z :: l' => bool_decide (x = z) && prefixb l l'
  | _ :: _, [] => false
  end.
Lemma prefixb_sound l l' : prefixb l l' = true -> l `prefix_of` l'.
Proof.
  revert l'. induction l as [|x l IH]; intros [|z l'] H; try done; [apply prefix_nil..|]. cbn in H. apply andb_true_iff in H as [H1 H2].
  apply bool_decide_eq_true in H1 as ->. by apply prefix_cons, IH.
Qed.
(** [before] is what was read from the connection before. *)
Fixpoint followsb (prog : list action) (h : N) (before : list bytes) (ls : list label) (y : sys) : bool :=
  match ls with
  | [] => true
  | l :: ls =>
      match read_of h l with [packet] => prefixb (before ++ [packet]) (sent_by prog (received h y)) | _ => true end
      && match sys_step l y with Some y' => followsb prog h (before ++ read_of h l) ls y' | None => true end
  end.
Lemma followsb_sound prog h ls : followsb prog h [] ls sys_new = true -> follows prog h ls.
Proof.
  assert (forall ls0 y, sys_run ls0 sys_new = Some y -> followsb prog h (packets_read h ls0) ls y = true ->
    forall ls1 packet ls2 y1, ls = ls1 ++ LRead h packet :: ls2 -> sys_run ls1 y = Some y1 ->
      (packets_read h (ls0 ++ ls1) ++ [packet]) `prefix_of` sent_by prog (received h y1)) as H.
  2:{ intros B ls1 packet ls2 y1. apply (H [] sys_new eq_refl B). }
  induction ls as [|l ls IH]; intros ls0 y R B ls1 packet ls2 y1 E R1; [by destruct ls1|].
  cbn [followsb] in B. apply andb_true_iff in B as [B1 B2]. destruct ls1 as [|l1 ls1].
  - injection E as -> _. injection R1 as <-. cbn [read_of] in B1. rewrite N.eqb_refl in B1. rewrite app_nil_r. by apply prefixb_sound.
  - injection E as <- ->. cbn [sys_run] in R1. destruct (sys_step l y) as [y'|] eqn:S; [|discriminate]. cbn in R1.
    replace (ls0 ++ l :: ls1) with ((ls0 ++ [l]) ++ ls1) by (by rewrite <- app_assoc). eapply (IH (ls0 ++ [l]) y'); [| |done|done].
    + by rewrite sys_run_app, R; cbn; rewrite S.
    + unfold packets_read. rewrite map_app, concat_app. cbn [map concat]. by rewrite app_nil_r.
Qed.

(** The controller of tests/ranging.py sets up its session, while another host connects and resets its device. *)
Definition controller_7 : list action := set_up_program 7 0 (ranging_config 1 1 [1; 0] [2; 0]).
Definition script_7 : list label :=
  parts (talk LConnect ++ talk LConnect ++ talk (rd 0 (CmdDeviceReset 0)) ++ talk (rd 1 (CmdDeviceReset 0)) ++ talk (rd 0 (CmdSessionInit 7 0))
    ++ talk (rd 0 (CmdSetAppConfig 7 (ranging_config 1 1 [1; 0] [2; 0])))) sys_new.
(** The same, but the machine is slow between the start of the task that sends the notification of the reset and the
    response. *)
Definition script_slow : list label :=
  parts (talk LConnect ++ [raw [rd 0 (CmdDeviceReset 0); LTake plain_env; LEffect]; raw (ticks 5 ++ [LNotify 0]); effects]) sys_new.
