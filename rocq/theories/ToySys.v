(** A concrete world for examples and counterexamples on whole histories. *)
From Verif Require Import Base Ops ToyEnv Object PropObject Store Sys.

Definition pad (n : nat) (l : list N) : list N := firstn n (l ++ zeros n).
(** The PIN hash keeps the PIN and the seed apart; ciphertext is the plain text
    masked with the first key byte followed by a tag naming the key. *)
Definition toy_hash (pin seed : list N) : list N := pad 16 pin ++ pad 16 seed.
Definition mask (key l : list N) : list N := map (fun x => N.lxor x (hd 0%N key)) l.
Definition toy_enc (key iv p : list N) : list N := mask key p ++ pad 16 key.
Definition toy_dec (key iv d : list N) : Z * list N :=
  let n := (length d - 16)%nat in
  if list_eq_dec N.eq_dec (skipn n d) (pad 16 key) then (0%Z, mask key (firstn n d)) else (AES_GCM_AUTH_E, []).
Definition rsa_l (r : rsak) : list N := [r_n r; r_d r; r_p r; r_q r; r_dP r; r_dQ r; r_u r; r_e r].
Definition l_rsa (l : list N) : Z * rsak :=
  match l with [n; d; p; q; dp; dq; u; e] => (0%Z, mkRsa n d p q dp dq u e) | _ => ((-140)%Z, rsa0) end.
(** The encodings name the curve; without one they fail. *)
Definition ec_l (c : Z) (l : list N) : list N := Z.to_N c :: Z.to_N (- c) :: l.
Definition ec_exp (k : eck) (l : list N) : Z * list N :=
  match ec_curve k with Some c => (zlen (ec_l c l), ec_l c l) | None => ((-170)%Z, []) end.
Definition l_curve (a b : N) : option Z := Some (Z.of_N a - Z.of_N b)%Z.
Definition tse : senv :=
  mkSE toy_hash toy_enc toy_dec (fun r => (8%Z, rsa_l r)) (fun r => (2%Z, [r_n r; r_e r]))
       l_rsa (fun l _ => match l with [n; e] => (0%Z, mkRsa n 0 0 0 0 0 0 e) | _ => ((-140)%Z, rsa0) end)
       (fun k => ec_exp k [ec_k k]) (fun k => ec_exp k (ec_pt k))
       (fun l => match l with [a; b; k] => (0%Z, mkEc (l_curve a b) 3 k []) | _ => ((-140)%Z, ec0) end)
       (fun l _ => match l with a :: b :: pt => (0%Z, mkEc (l_curve a b) 1 0 pt) | _ => ((-140)%Z, ec0) end)
       (fun p g => (2%Z, [p; g]))
       (fun l => match l with [p; g] => (0%Z, (p, g)) | _ => ((-140)%Z, (0%N, 0%N)) end).
Definition tw : world :=
  mkW toy toe tse (fun d => match d with KRsa r => [r_n r] | _ => [] end) (fun _ => 256%Z)
      (fun r => (0%Z, rsa_l r)) l_rsa.

Definition nofiles : fs := fun _ => None.
(** Randomness: stream [k], call of a history. *)
Definition rnd (k : N) : nat -> list N := fun i => repeat (k + N.of_nat i)%N 16.
Fixpoint numbered (k : N) (l : list op) : list (op * (nat -> list N)) :=
  match l with [] => [] | c :: r => (c, rnd k) :: numbered (k + 10) r end.
Definition hist (l : list op) : res (sys * list out) := run tw (sys0 nofiles) (numbered 1 l).
Definition after (l : list op) : sys := match hist l with Ok (s, _) => s | _ => sys0 nofiles end.
Definition outs (l : list op) : list out := match hist l with Ok (_, o) => o | _ => [] end.
Definition rvs (l : list op) : list Z := map out_rv (outs l).

Definition H1 : Z := 65537.
Definition H2 : Z := 65538.
Definition H3 : Z := 65539.
Definition RW : Z := 6.
Definition RO : Z := 4.
Definition sopin : list N := [115; 111; 112; 105; 110]%N.
Definition upin : list N := [117; 115; 101; 114]%N.
Definition pin2 : list N := [110; 101; 119; 50]%N.
Definition wrong : list N := [1; 2; 3; 4; 5]%N.
Definition lab : list N := repeat 76%N 32.
(** Initialise the library and the token, set the user PIN; all sessions closed. *)
Definition setup : list op :=
  [OInitialize; OInitToken 1 sopin lab; OOpenSession 1 RW; OLogin H2 CKU_SO sopin (Some 0%Z); OInitPIN H2 upin;
   OLogout H2; OCloseSession H2].
Example setup_ok : rvs setup = repeat CKR_OK 7.
Proof. vm_compute. reflexivity. Qed.

Lemma run_reach w s0 s l s' o : reach w s0 s -> run w s l = Ok (s', o) -> reach w s0 s'.
Proof.
  revert s o. induction l as [|[c r] l IH]; cbn; intros s o R H; [injection H as <- _; exact R|].
  destruct (step w r s c) as [[s1 o1]| |] eqn:E; cbn [bind] in H; try discriminate.
  destruct (run w s1 l) as [[s2 os]| |] eqn:E2; cbn [bind] in H; try discriminate. injection H as <- _.
  eapply IH; [|exact E2]. eapply reach_step; eauto.
Qed.
Lemma after_reach l : (match hist l with Ok _ => True | _ => False end) -> reach tw (sys0 nofiles) (after l).
Proof.
  unfold after, hist. destruct (run _ _ _) as [[s o]| |] eqn:E; try contradiction. intros _.
  eapply run_reach; [apply reach_0|exact E].
Qed.
