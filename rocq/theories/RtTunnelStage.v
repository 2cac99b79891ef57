(** * RtTunnelStage: all the OpenVPN instances of a device (proofs only). *)
From Verif Require Import PyBase PyLemmas Merge SpecMerge MergeProofs MergeListProofs MergeFinal
  Backend Conv OwrtConv OpenVpnConv SpecUci SpecConv SpecDevice SpecTunnel ConvLemmas SortLemmas RtStage RtBack RtGeneric RtSystem RtTrip RtObjects RtStages RtTunnel.

Definition vpn_sec (b : dict) (_ : nat) : res dict := do r <- owrt_vpn_section b; Ok (fst r).
Lemma vpn_loop_list config : forall l ss i acc, indexed (fun i b s => tunnel_ok b /\ vpn_sec b i = Ok s) i l ss ->
  vpn_loop owrt_vpn_section (map VDict l) config (acc_of "openvpn" acc) = (config, Ok (acc_of "openvpn" (acc ++ ss))).
Proof.
  intros l ss i acc H. revert acc. induction H as [i|i b s l ss (Hok & Hs) H IH]; intros acc.
  - cbn. rewrite app_nil_r. reflexivity.
  - cbn [map vpn_loop as_dict bind]. unfold vpn_sec in Hs. destruct (tunnel_section b Hok) as (s0 & E & _). rewrite E in *. cbn [bind fst] in Hs. injection Hs as ->.
    rewrite add_blocks_acc, IH, <- app_assoc. reflexivity.
Qed.
Lemma vpn_stage config : objects_at "openvpn" config (fun _ => tunnel_ok) ->
  stage_for config owrt_openvpn "openvpn" "openvpn" ["openvpn"] (map (name_or "name" EmptyString) (objects "openvpn" config)) (fun t => t = "openvpn")
    (made_by config "openvpn" vpn_sec).
Proof.
  intros H. destruct (objects_cases _ _ _ H) as (l & Hk & Hl).
  destruct (list_facts "openvpn" "openvpn" ["openvpn"] vpn_sec (fun b _ => owrt_vpn_back b) (fun _ => name_or "name" EmptyString) (fun t => t = "openvpn") config l) as (ss & Hf & Hsh).
  - intros t ->. right. reflexivity.
  - exact Hk.
  - destruct l as [l|]; [|exact I]. destruct Hl as [Hne Hl]. split; [exact Hne|]. intros j b Hj. exists "openvpn". split; [reflexivity|]. apply tunnel_object, (Hl j b Hj).
  - rewrite numbered_map in Hf.
    exists {| sg_conv := owrt_openvpn; sg_key := "openvpn"; sg_pkg := "openvpn"; sg_base := None; sg_val := option_map (fun l => VList (map VDict l)) l; sg_more := []; sg_secs := ss;
       sg_eats := fun d => negb (skip_block ["openvpn"] d) |}.
    split; [|split; [|split; [|split; [|split; [|split; [|split; [|split; [|exact Hsh]]]]]]]]; try reflexivity; [symmetry; exact Hk|]. destruct Hf as [F1 F2 F3 F4 F5 F6 F7]. constructor; try assumption.
    intros before _. unfold stage_fwd. cbn. unfold dmem. destruct l as [l|]; cbn in Hk; rewrite Hk.
    + right. split; [reflexivity|]. intros inter _. unfold vpn_fwd, dgetN. rewrite Hk. cbn [as_list].
      change (@nil (string * val)) with (acc_of "openvpn" []). rewrite (vpn_loop_list config l ss 0 []); [reflexivity|].
      rewrite (objects_list _ _ _ Hk) in Hsh. destruct Hl as [_ Hl].
      assert (Hl' : forall b, In b l -> tunnel_ok b) by (intros b Hb; apply In_nth_error in Hb as (j & Hj); exact (Hl j b Hj)).
      clear -Hsh Hl'. induction Hsh as [|i b s l ss Hs Hr IH]; constructor; [split; [apply Hl'; left; reflexivity|exact Hs]|]. apply IH. intros x Hx. apply Hl'. right; exact Hx.
    + left. split; [|reflexivity]. rewrite (objects_none _ _ Hk) in Hsh. inversion Hsh. reflexivity.
Qed.
