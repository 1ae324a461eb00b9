(** Tests, not proofs: as InstCalls.v, for the theorems about keys and PINs that outlive logouts, restarts and processes.
    [lasts] is [false] only if the hypotheses hold, [tidy_run] among them, and the key is not as it was. *)
From Verif Require Import Base Ops ToyEnv Object PropObject Store Sys ToySys.
From Coq Require Import String List Bool ZArith. Import ListNotations.
Open Scope list_scope. Local Notation length := List.length.
Definition leq (a b : list N) : bool := if list_eq_dec N.eq_dec a b then true else false.
Definition fits_valb (v : sval) : bool := match v with SV b => (zlen b <? 2^31)%Z | SNull n => (n =? 0)%Z end.
Definition within (a b x : Z) : bool := andb (a <=? x)%Z (x <? b)%Z.
Definition fits_pinb (p : pin) : bool :=
  andb (within (-2^31) (2^31) (p_fail p)) (andb (within (-2^63) (2^63) (p_last p)) (within (-2^63) (2^63) (p_tmo p))).
Definition storableb (se : senv) (o : obj) : bool :=
  if is_cert o then match o_data o with KCert l b => andb (andb (0 <? l)%Z (l <=? zlen b)%Z) (andb (l <? 2^31)%Z (negb (is_sym o))) | _ => false end
  else andb (match key_kind o with None => false | _ => true end)
      (andb (match o_keyData o with Some kd => (zlen kd <? 2^31)%Z | None => false end)
            (orb (negb (o_type o =? CKK_DH)%Z) (match as_dh o with
               | Ok (p, g, _, _) => andb (0 <=? fst (se_dh_der se p g))%Z (zlen (snd (se_dh_der se p g)) <? 2^31)%Z | _ => false end))).
Definition tidyb (w : world) (s : sys) : bool :=
  andb (andb (fits_pinb (t_so (s_tok s))) (fits_pinb (t_user (s_tok s))))
       (forallb (fun o => andb (andb (fits_valb (o_keyId o)) (fits_valb (o_label o))) (storableb (w_se w) o)) (t_objs (s_tok s))).
Fixpoint tidy_runb (w : world) (s : sys) (l : list (op * (nat -> list N))) : bool :=
  andb (tidyb w s) (match l with [] => true | (c, r) :: l' => match step w r s c with Ok (s1, _) => tidy_runb w s1 l' | _ => true end end).
Definition obj_at (s : sys) (h : Z) : option obj := match sess_get s H2 with Some x => find_obj s x h | None => None end.
Definition curve (e : eck) : N := match ec_curve e with Some c => Z.to_N c | None => 99%N end.
Definition proj (priv : bool) (o : obj) : list N := match o_data o with
  | KSym l b => Z.to_N (o_type o) :: firstn (Z.to_nat l) b
  | KRsa r => if priv then rsa_l r else [r_n r; r_e r]
  | KEc e => if priv then [curve e; ec_k e] else curve e :: ec_pt e
  | KDh p g l b => p :: g :: firstn (Z.to_nat l) b | _ => [] end.
Definition tk (t : template) : template := mkA CKA_TOKEN TRUE :: t.
Definition ulog (n : Z) := OLogin H2 CKU_USER upin (Some n).
Definition upto : list N := map N.of_nat (seq 1 32).
Definition sec_t : template := [mkA CKA_CLASS (ULONG CKO_SECRET_KEY); mkA CKA_KEY_TYPE (ULONG CKK_AES)].
Definition val_t : template := sec_t ++ [mkA CKA_VALUE (AV (firstn 16 upto))].
Definition ec_p : attr := mkA CKA_EC_PARAMS (AV ([6; 8] ++ p256)%N).
Definition rk : rsak := Object.mkRsa 33 7 3 11 1 7 2 3.
Definition dhp := [mkA CKA_PRIME (AV [23%N]); mkA CKA_BASE (AV [5%N])].
Definition pre : list op := setup ++ [OOpenSession 1 RW; ulog 0].
Definition dhk : op := OGenerateKeyPair H2 KP_DH dhp [] (Some (GDh [6%N] [8%N])).
Definition tails : list (list op) :=
  [[OFindObjectsInit H2 []]; [OLogout H2; ulog 1]; [OLogin H2 CKU_USER wrong (Some 1%Z); OLogout H2; OCreateObject H2 val_t; ulog 2];
   [OFinalize; OInitialize; OOpenSession 1 RW; ulog 1]; [ORestart; OInitialize; OOpenSession 1 RW; ulog 1]; [OLogout H2; ORestart; OInitialize; OOpenSession 1 RW; ulog 1];
   [OCreateObject H2 (tk val_t); OFinalize; OInitialize; OOpenSession 1 RW; ulog 1; OLogout H2; ulog 2; OFinalize; OInitialize; OOpenSession 1 RW; ulog 3; OCloseSession H2; OOpenSession 1 RW; ulog 4]].
Definition hs_of (o : out) (second : bool) : option Z := match o with OutH 0 h => Some h | OutH2 0 a b => Some (if second then b else a) | _ => None end.
(** false only if every hypothesis holds and the key is not as it was *)
Definition lasts (before : list op) (c : op) (second : bool) (want : option (list N)) (tl : list op) : bool :=
  let l1 := pre ++ before ++ [c] in let l := l1 ++ tl in
  match hist l1, hist l with
  | Ok (s2, os1), Ok (s, _) => match hs_of (last os1 (OutRv 1)) second with
      | Some h => if andb (andb (2^28 <=? h) (t_login (s_tok s) =? RW_USER))%Z (andb (match sess_get s H2 with Some _ => true | None => false end) (tidy_runb tw (sys0 nofiles) (numbered 1 l)))
                  then match obj_at s2 h, obj_at s h with
                       | Some a, Some b => let v := match want with Some v => v | None => proj second a end in leq (proj second b) v
                       | Some _, None => false | None, _ => match want with Some _ => false | None => true end end
                  else true
      | None => true end
  | _, _ => true end.
Definition all before c second want := forallb (lasts before c second want) tails.
(** The hypotheses hold in every case. *)
Definition met (before : list op) (c : op) (second : bool) : list bool := map (fun tl => let l := pre ++ before ++ [c] ++ tl in match hist l with Ok (s, _) => andb (t_login (s_tok s) =? RW_USER)%Z (andb (match sess_get s H2 with Some _ => true | None => false end) (tidy_runb tw (sys0 nofiles) (numbered 1 l))) | _ => false end) tails.
Definition i_C127_there := all [] (OCreateObject H2 (tk val_t)) false (Some (31%N :: firstn 16 upto)).
Definition i_C128_there := all [] (OGenerateKey H2 true (tk [mkA CKA_VALUE_LEN (ULONG 16)]) upto) false None.
Definition i_C128_generated := all [] (OGenerateKey H2 true (tk [mkA CKA_VALUE_LEN (ULONG 16)]) upto) false (Some (31%N :: firstn 16 upto)).
Definition dkey := ODeriveKey H2 D_DH 2 (Some (firstn 16 upto)) (tk sec_t).
Definition i_C128_derived := all [dhk] dkey false (Some (31%N :: firstn 16 upto)).
Definition rsap := OGenerateKeyPair H2 KP_RSA (tk []) (tk []) (Some (GRsa rk)).
Definition ecp := OGenerateKeyPair H2 KP_EC (tk [ec_p]) (tk [ec_p]) (Some (GEc 77 [4; 1; 2]%N)).
Definition dhp2 := OGenerateKeyPair H2 KP_DH (tk dhp) (tk dhp) (Some (GDh [6; 7]%N [8; 9; 10]%N)).
Definition i_C129_rsa := all [] rsap true None.
Definition i_C129_ec := all [] ecp true None.
Definition i_C130_rsa := all [] rsap false None.
Definition i_C130_ec := all [] ecp false None.
Definition i_C132_there := andb (all [] dhp2 true None) (all [] dhp2 false None).
(** PINs: wrong ones are refused, the right one is not called wrong *)
Definition rv_of (l : list op) : Z := last (rvs l) (-1)%Z.
Definition tidyl (l : list op) := andb (match hist l with Ok _ => true | _ => false end) (tidy_runb tw (sys0 nofiles) (numbered 1 l)).
Definition pins : list (list op) := [[OOpenSession 1 RW]; [OFinalize; OInitialize; OOpenSession 1 RW]; [ORestart; OInitialize; OOpenSession 1 RW]; [OOpenSession 1 RW; OLogin H2 CKU_USER wrong (Some 3%Z)]; [OOpenSession 1 RW; ulog 1; OLogout H2]].
Definition i_C126_wrong_pin := forallb (fun tl => let a := setup ++ tl ++ [OLogin H2 CKU_SO wrong (Some 9%Z)] in let b := setup ++ tl ++ [OLogin H2 CKU_USER wrong (Some 9%Z)] in andb (if tidyl a then negb (rv_of a =? 0)%Z else true) (if tidyl b then negb (rv_of b =? 0)%Z else true)) pins.
Definition i_C126_right_pin := forallb (fun tl => let a := setup ++ tl ++ [OLogin H2 CKU_SO sopin (Some 9%Z)] in if tidyl a then existsb (Z.eqb (rv_of a)) [CKR_OK; CKR_USER_ALREADY_LOGGED_IN; CKR_SESSION_READ_ONLY_EXISTS; CKR_SESSION_HANDLE_INVALID; CKR_CRYPTOKI_NOT_INITIALIZED] else true) pins.
Example instances : forallb (fun b => b) [i_C127_there; i_C128_there; i_C128_generated; i_C128_derived; i_C129_rsa; i_C129_ec; i_C130_rsa; i_C130_ec; i_C132_there; i_C126_wrong_pin; i_C126_right_pin] = true.
Proof. vm_compute. reflexivity. Qed.
Example instances_met : concat [met [] (OCreateObject H2 (tk val_t)) false; met [] rsap true; met [dhk] dkey false; met [] dhp2 true; met [] ecp true] = repeat true 35 /\ last (outs (pre ++ [dhk; dkey])) (OutRv 1) = OutH CKR_OK (2^28 + 1).
Proof. vm_compute. auto. Qed.
