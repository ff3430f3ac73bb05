(** * Demo: concrete reachable server states used as examples beside the theorems *)
From Verif Require Import Base Const Types State Events Atomic Server Lib SearchProofs Shape Inv Reach Spec.

Definition play (E : env) (os : list op) : run server := s0 <-- boot E 1000 empty_ret ;; exec E s0 os.
Definition after_ops (E : env) (os : list op) : server :=
  match play E os with Done s => s | Undef _ => empty_server 0 empty_ret end.
Definition plays (E : env) (os : list op) : bool := match play E os with Done _ => true | Undef _ => false end.
(** keeps the conversion test from running the server symbolically *)
#[global] Opaque boot.
Lemma play_after E os : plays E os = true -> play E os = Done (after_ops E os).
Proof. unfold plays, after_ops. destruct (play E os); [reflexivity | discriminate]. Qed.
Lemma after_reachable E os : plays E os = true -> reachable E (after_ops E os).
Proof.
  intros H. apply play_after in H. unfold play in H. apply rbind_done in H as [s0 [H1 H2]].
  exists 1000, empty_ret, s0, os. split; [exact H1 | exact H2].
Qed.
(** the two environments used in examples: the lenient one and one that treats every use of
    freed memory as undefined *)
Definition envS : env :=
  mk_env true (fun _ => 0) (fun _ => true) (fun _ => 0) (fun _ _ => 165) (fun _ _ => true) (fun _ => 0)
         (fun _ _ _ => 0) (fun _ _ _ => 0) [].

(** two connections; foo: DINT[10], bar: BOOL[12], baz: INT[4] *)
Definition demo_ops : list op :=
  [ OpRegister 5 (str "alpha"); OpRegister 6 (str "beta");
    OpTagAdd 5 (str "foo") T_DINT 10 0; OpTagAdd 5 (str "bar") T_BOOL 12 0; OpTagAdd 6 (str "baz") T_INT 4 0;
    OpWrite 5 13 4 [1; 2; 3; 4] ].
Definition demo : server := after_ops env0 demo_ops.
Lemma demo_reachable : reachable env0 demo.
Proof. apply after_reachable. vm_compute. reflexivity. Qed.
(** the same after foo has been deleted *)
Definition demo_del : server := after_ops env0 (demo_ops ++ [OpTagDel 5 13]).
Lemma demo_del_reachable : reachable env0 demo_del.
Proof. apply after_reachable. vm_compute. reflexivity. Qed.
Lemma absent_check E s n : reachable E s -> existsb (fun e => name_eqb n (fst e)) (s_index s) = false -> ~ exists_tag s n.
Proof.
  intros R H (i & t & H1 & H2). assert (I := reachable_Inv _ _ R).
  assert (A : In (n, i) (s_index s)) by (apply (iv_index _ I); eauto).
  assert (existsb (fun e => name_eqb n (fst e)) (s_index s) = true); [|congruence].
  apply existsb_exists. exists (n, i). split; [exact A | apply name_eqb_refl].
Qed.
