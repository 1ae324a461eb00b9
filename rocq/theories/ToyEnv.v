(** A concrete environment for examples: XOR "cipher", additive "MAC". *)
From Verif Require Import Base Cbc CbcProofs Ops OpsSpec.

Definition toy_E (k b : list N) : list N := rev (map (fun x => N.lxor x (hd 90%N k)) b).
Definition toy_D (k b : list N) : list N := map (fun x => N.lxor x (hd 90%N k)) (rev b).
Definition toy_ci : cipher := mkCipher toy_E toy_D false false.

Definition sum (l : list N) : N := N.modulo (fold_left N.add l 0%N) 256.
Definition tag16 (iv : list N) (aad : option (list N)) (ct : list N) : list N :=
  map (fun i => N.modulo (N.of_nat i + sum iv + 3 * sum (match aad with Some a => a | None => [] end)
                          + 5 * sum ct + N.of_nat (length ct)) 256)%N (seq 0 16).
(** counter-mode-like stream: byte i is masked with iv sum + i + key *)
Definition stream (k iv d : list N) : list N :=
  map (fun p => N.lxor (snd p) (N.modulo (N.of_nat (fst p) + sum iv + hd 0%N k) 256))
      (combine (seq 0 (length d)) d).

Definition toy_genc (key iv : list N) (aad : option (list N)) (asz : Z) (p : list N) (t : Z)
  : res (list N * list N) :=
  if orb (t <? 0)%Z (16 <? t)%Z then Err BAD_FUNC_ARG
  else let c := stream key iv p in Ok (c, firstn (Z.to_nat t) (tag16 iv aad c)).
Definition toy_gdec (key iv : list N) (aad : option (list N)) (asz : Z) (c t : list N)
  : res (list N) :=
  if list_eqb t (firstn (length t) (tag16 iv aad c)) then Ok (stream key iv c)
  else Err AES_GCM_AUTH_E.

Definition toy_hmac (h : hash) (k d : list N) : list N :=
  repeat (N.modulo (sum k + 7 * sum d + N.of_nat (length d)) 256) (Z.to_nat (hmac_sz h)).

Definition toy_pk (m : mech) (k : keyobj) (p : pkparams) (r d : list N) : res (list N) :=
  if (zlen d <=? ko_len k)%Z then Ok (map (fun x => N.lxor x 7) d) else Err BAD_FUNC_ARG.

Definition toy : env :=
  mkEnv toy_ci (fun k => length k =? 16) (fun k => length k =? 16) toy_genc toy_gdec
        (fun _ _ => true) toy_hmac (fun _ q => q) toy_pk toy_pk toy_pk
        (fun m k p s d => Ok (list_eqb s (map (fun x => N.lxor x 7) d))).

Lemma map_lxor_invol k l : map (fun x => N.lxor x k) (map (fun x => N.lxor x k) l) = l.
Proof.
  induction l as [|x l IH]; cbn; [reflexivity|].
  rewrite IH, N.lxor_assoc, N.lxor_nilpotent, N.lxor_0_r. reflexivity.
Qed.

Lemma toy_cipher_ok : cipher_ok toy_ci.
Proof.
  split; intros k b H; cbn; unfold toy_E, toy_D.
  - rewrite rev_length, map_length. exact H.
  - rewrite rev_involutive. apply map_lxor_invol.
Qed.

Lemma toy_sizes : env_sizes toy.
Proof.
  assert (Hs : forall k iv d, length (stream k iv d) = length d).
  { intros. unfold stream. rewrite map_length, combine_length, seq_length. lia. }
  split; cbn.
  - intros k b H. unfold toy_E. rewrite rev_length, map_length. exact H.
  - intros k b H. unfold toy_D. rewrite map_length, rev_length. exact H.
  - intros key iv aad asz p t c tag. unfold toy_genc.
    destruct (Z.ltb_spec t 0); [discriminate|]. destruct (Z.ltb_spec 16 t); [discriminate|].
    cbn [orb]. intros E. injection E as <- <-. split; [apply Hs|].
    split; [|lia]. unfold zlen. rewrite firstn_length. unfold tag16.
    rewrite map_length, seq_length. lia.
  - intros key iv aad asz c t p. unfold toy_gdec.
    destruct (list_eqb _ _); [|discriminate]. intros E; injection E as <-. apply Hs.
  - intros h k d. unfold toy_hmac, zlen. rewrite repeat_length. destruct h; reflexivity.
  - intros m k p r d o. unfold toy_pk. destruct (Z.leb_spec (zlen d) (ko_len k)); [|discriminate].
    intros E; injection E as <-. unfold zlen in *. rewrite map_length. lia.
  - intros m k p r d o. unfold toy_pk. destruct (Z.leb_spec (zlen d) (ko_len k)); [|discriminate].
    intros E; injection E as <-. unfold zlen in *. rewrite map_length. lia.
  - intros m k p r d o. unfold toy_pk. destruct (Z.leb_spec (zlen d) (ko_len k)); [|discriminate].
    intros E; injection E as <-. unfold zlen in *. rewrite map_length. lia.
  - unfold toy_genc, toy_gdec, toy_pk. repeat split; intros.
    + destruct (orb _ _); discriminate.
    + destruct (list_eqb _ _); discriminate.
    + destruct (Z.leb _ _); discriminate.
    + destruct (Z.leb _ _); discriminate.
    + destruct (Z.leb _ _); discriminate.
  - reflexivity.
Qed.

Definition aes_key1 : keyobj := mkKey CKK_AES (repeat 33%N 16) [] 0.
Definition hmac_key1 : keyobj := mkKey CKK_GENERIC_SECRET [1;2;3]%N [] 0.
Definition rsa_key1 : keyobj := mkKey CKK_RSA [] [9]%N 4.
Definition ec_key1 : keyobj := mkKey CKK_EC [] [8]%N 6.
Definition toy_objs (i : nat) : option keyobj :=
  match i with 0 => Some aes_key1 | 1 => Some hmac_key1 | 2 => Some rsa_key1 | 3 => Some ec_key1 | _ => None end.
Definition toy_iv : list N := map N.of_nat (seq 1 16).
