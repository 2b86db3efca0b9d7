(** * The configuration builder (C42) *)
From Coq Require Import List NArith Arith Bool Lia.
From Coq.Strings Require Import Byte.
From Verif Require Import Base Codes Config SpecConfig.
Import ListNotations.

Definition rsa_schemes : list sig_scheme :=
  [SS_RsaPkcs1Sha256; SS_RsaPkcs1Sha384; SS_RsaPkcs1Sha512; SS_RsaPssRsaeSha256; SS_RsaPssRsaeSha384; SS_RsaPssRsaeSha512].

Lemma push_all {A} cap (xs : list A) : forall v,
  vec_push_all cap v xs = if length v + length xs <=? cap then Ok (v ++ xs) else (if length xs =? 0 then Ok v else Panic PUnwrap).
Proof.
  induction xs as [|x xs IH]; intros v; cbn [vec_push_all].
  - rewrite app_nil_r. cbn. now destruct (_ <=? _).
  - unfold vec_push. destruct (Nat.ltb_spec (length v) cap) as [H|H]; cbn [obind].
    + rewrite IH, app_length, <- app_assoc. cbn [length app].
      replace (length v + 1 + length xs) with (length v + S (length xs)) by lia.
      destruct (Nat.leb_spec (length v + S (length xs)) cap); [reflexivity|].
      destruct (Nat.eqb_spec (length xs) 0); [lia|reflexivity].
    + cbn [length]. destruct (Nat.leb_spec (length v + S (length xs)) cap); [lia|]. reflexivity.
Qed.

Lemma enable_rsa c : cfg_enable_rsa c =
  if length (cfg_schemes c) + 6 <=? 25 then Ok (cfg_with_schemes c (cfg_schemes c ++ rsa_schemes)) else Panic PUnwrap.
Proof.
  unfold cfg_enable_rsa. rewrite push_all. change (length [_; _; _; _; _; _]) with 6.
  destruct (_ <=? 25); reflexivity.
Qed.

(** A configuration as the sum of its parts. *)
Definition after (bs : list builder) (c : tls_config) : tls_config :=
  mk_config (latest says_name bs (cfg_server_name c)) (latest says_alpn bs (cfg_alpn c)) (latest says_psk bs (cfg_psk c))
    (cfg_schemes c ++ times (rsa_calls bs) rsa_schemes) (cfg_groups c) (latest says_frag bs (cfg_max_frag c)).
Definition fits_from (n : nat) (bs : list builder) : Prop :=
  (forall k ids, In (WithPsk k ids) bs -> length ids <= 4) /\ n + 6 * rsa_calls bs <= 25.

Lemma build_after bs : forall c, length (cfg_schemes c) <= 25 ->
  (fits_from (length (cfg_schemes c)) bs /\ build bs c = Ok (after bs c)) \/
  (~ fits_from (length (cfg_schemes c)) bs /\ build bs c = Panic PUnwrap).
Proof.
  induction bs as [|b bs IH]; intros c Hc.
  - left. split; [split; [intros ? ? []|cbn; lia]|]. cbn. unfold after. cbn. rewrite app_nil_r. now destruct c.
  - assert (K : forall c', build1 c b = Ok c' -> cfg_schemes c' = cfg_schemes c -> rsa_calls (b :: bs) = rsa_calls bs ->
      (forall k ids, b = WithPsk k ids -> length ids <= 4) -> after bs c' = after (b :: bs) c ->
      (fits_from (length (cfg_schemes c)) (b :: bs) /\ build (b :: bs) c = Ok (after (b :: bs) c)) \/
      (~ fits_from (length (cfg_schemes c)) (b :: bs) /\ build (b :: bs) c = Panic PUnwrap)).
    { intros c' E Es Er Hp Ea. cbn [build]. rewrite E. cbn [obind]. rewrite <- Es in Hc. specialize (IH c' Hc). rewrite Es, Ea in IH.
      unfold fits_from in *. rewrite Er. destruct IH as [[[H1 H2] E2]|[H E2]]; [left|right]; (split; [|exact E2]).
      - split; [|exact H2]. intros k ids [H|H]; [now apply (Hp k)|now apply (H1 k)].
      - intros [H1 H2]. apply H. split; [|exact H2]. intros k ids Hi. apply (H1 k). now right. }
    destruct b as [n|p|m| |k ids|].
    + apply (K (cfg_with_server_name c n)); try reflexivity. discriminate.
    + apply (K (cfg_with_alpn c p)); try reflexivity. discriminate.
    + apply (K (cfg_with_max_frag c (Some m))); try reflexivity. discriminate.
    + apply (K (cfg_with_max_frag c None)); try reflexivity. discriminate.
    + destruct (Nat.leb_spec (length ids) 4) as [H|H].
      * apply (K (mk_config (cfg_server_name c) (cfg_alpn c) (Some (k, ids)) (cfg_schemes c) (cfg_groups c) (cfg_max_frag c))); try reflexivity.
        -- cbn [build1]. unfold cfg_with_psk. destruct (Nat.leb_spec (length ids) 4); [reflexivity|lia].
        -- intros k' ids' E. inversion E; subst. exact H.
      * right. split.
        -- intros [H1 _]. specialize (H1 k ids (or_introl eq_refl)). lia.
        -- cbn [build build1]. unfold cfg_with_psk. destruct (Nat.leb_spec (length ids) 4); [lia|reflexivity].
    + cbn [build build1]. rewrite enable_rsa. unfold fits_from.
      change (rsa_calls (EnableRsaSignatures :: bs)) with (S (rsa_calls bs)).
      destruct (Nat.leb_spec (length (cfg_schemes c) + 6) 25) as [H|H]; cbn [obind].
      * specialize (IH (cfg_with_schemes c (cfg_schemes c ++ rsa_schemes))). cbn [cfg_with_schemes cfg_schemes] in IH.
        rewrite app_length in IH. change (length rsa_schemes) with 6 in IH. specialize (IH H).
        assert (Ea : after bs (cfg_with_schemes c (cfg_schemes c ++ rsa_schemes)) = after (EnableRsaSignatures :: bs) c).
        { unfold after. cbn [cfg_with_schemes cfg_schemes cfg_server_name cfg_alpn cfg_psk cfg_groups cfg_max_frag latest says_name says_alpn says_psk says_frag].
          change (rsa_calls (EnableRsaSignatures :: bs)) with (S (rsa_calls bs)). cbn [times]. now rewrite app_assoc. }
        rewrite <- Ea. unfold fits_from in IH.
        destruct IH as [[[H1 H2] E2]|[H1 E2]]; [left|right]; (split; [|exact E2]).
        -- split; [|lia]. intros k ids [Hi|Hi]; [discriminate|now apply (H1 k)].
        -- intros [H2 H3]. apply H1. split; [|lia]. intros k ids Hi. apply (H2 k). now right.
      * right. split; [|reflexivity]. intros [_ H2]. lia.
Qed.

Lemma new_is alloc : cfg_new alloc =
  Ok (mk_config None None None ((if alloc then rsa_schemes else []) ++ [SS_EcdsaSecp256r1Sha256; SS_EcdsaSecp384r1Sha384; SS_Ed25519])
        [NG_Secp256r1] None).
Proof. destruct alloc; reflexivity. Qed.

Lemma times_map {A B} (f : A -> B) n l : map f (times n l) = times n (map f l).
Proof. induction n as [|n IH]; cbn; [reflexivity|]. now rewrite map_app, IH. Qed.

(** For every sequence of builder calls: if the calls fit, each field holds what the last
    call for it said (the identities in their order), the signature schemes are the default
    ones and then the six RSA ones for each call, and the only group is P-256; if they do
    not fit, the program panics. *)
Theorem C42_builder : forall alloc bs,
  (fits alloc bs /\ exists c, configure alloc bs = Ok c /\
     cfg_server_name c = latest says_name bs None /\
     cfg_alpn c = latest says_alpn bs None /\
     cfg_psk c = latest says_psk bs None /\
     cfg_max_frag c = latest says_frag bs None /\
     map sig_scheme_code (cfg_schemes c) =
       (if alloc then rsa_codes else []) ++ ecc_codes ++ times (rsa_calls bs) rsa_codes /\
     map named_group_code (cfg_groups c) = [23%N]) \/
  (~ fits alloc bs /\ configure alloc bs = Panic PUnwrap).
Proof.
  intros alloc bs. unfold configure. rewrite new_is. cbn [obind].
  set (c0 := mk_config _ _ _ _ _ _).
  assert (El : length (cfg_schemes c0) = if alloc then 9 else 3) by (destruct alloc; reflexivity).
  destruct (build_after bs c0) as [[H E]|[H E]]; [rewrite El; destruct alloc; lia|left|right].
  - split; [unfold fits; unfold fits_from in H; rewrite El in H; exact H|]. exists (after bs c0). split; [exact E|].
    repeat (split; [reflexivity|]). split; [|reflexivity].
    unfold after. cbn [cfg_schemes c0]. rewrite !map_app, times_map, <- app_assoc. destruct alloc; reflexivity.
  - split; [|exact E]. unfold fits. unfold fits_from in H. now rewrite El in H.
Qed.

(** No vector is ever longer than its capacity. *)
Theorem C42_capacity : forall alloc bs c, configure alloc bs = Ok c ->
  length (cfg_schemes c) <= 25 /\ length (cfg_groups c) <= 13 /\ (forall k ids, cfg_psk c = Some (k, ids) -> length ids <= 4).
Proof.
  intros alloc bs c E. destruct (C42_builder alloc bs) as [[[Hp Hn] (c' & E' & _ & _ & Ek & _ & Es & Eg)]|[_ E']]; [|congruence].
  assert (c' = c) by congruence. subst c'. split.
  - apply (f_equal (@length N)) in Es. rewrite map_length, !app_length in Es. rewrite Es.
    assert (L : forall n, length (times n rsa_codes) = 6 * n) by (induction n as [|n IH]; [reflexivity|]; cbn [times]; rewrite app_length, IH; cbn [length rsa_codes]; lia).
    rewrite L. destruct alloc; cbn [length rsa_codes ecc_codes]; lia.
  - split.
    + apply (f_equal (@length N)) in Eg. rewrite map_length in Eg. cbn in Eg. lia.
    + intros k ids Ec. rewrite Ec in Ek. clear - Hp Ek.
      assert (G : forall bs b, (forall k ids, In (WithPsk k ids) bs -> length ids <= 4) -> (forall k ids, b = Some (k, ids) -> length ids <= 4) ->
        forall k ids, Some (k, ids) = latest says_psk bs b -> length ids <= 4).
      { clear. induction bs as [|x bs IH]; intros b Hp Hb k ids E; cbn [latest] in E; [now apply (Hb k)|].
        apply (IH _ (fun k ids H => Hp k ids (or_intror H))) in E; [exact E|].
        intros k' ids' E'. destruct x; cbn in E'; try (now apply (Hb k')). inversion E'; subst. apply (Hp k'). now left. }
      apply (G bs None Hp (fun _ _ H => ltac:(discriminate)) k ids Ek).
Qed.

(** Two full configurations, and two calls too many. *)
Definition four_ids : list bytes := [[x01]; [x02]; [x03]; [x04]].
Example C42_case :
  (exists c, configure true [WithServerName [x61]; EnableRsaSignatures; WithPsk [x09] four_ids; WithAlpn [[x68]]; WithServerName [x62];
      WithMaxFragmentLength MFL_Bits9; EnableRsaSignatures; ResetMaxFragmentLength] = Ok c /\
    cfg_server_name c = Some [x62] /\ cfg_psk c = Some ([x09], four_ids) /\ cfg_alpn c = Some [[x68]] /\ cfg_max_frag c = None /\ length (cfg_schemes c) = 21) /\
  configure false [EnableRsaSignatures; EnableRsaSignatures; EnableRsaSignatures; EnableRsaSignatures] = Panic PUnwrap /\
  configure false [WithPsk [x09] ([x05] :: four_ids); WithPsk [x09] []] = Panic PUnwrap.
Proof. split; [eexists; repeat split; reflexivity|]. split; reflexivity. Qed.

Print Assumptions C42_builder.
Print Assumptions C42_capacity.
