(** Property C66: the settings that an HTTP/3 endpoint writes are those that its peer keeps. *)
From Verif Require Import Base Varint_spec Varint_model Varint_proofs H3_spec Ctl_model Ctl_spec Ctl_proofs Ctlc_proofs Hset_model Hset_spec Hset_proofs.

(** Settings are written in any buffer of at least 64 bytes. *)
Theorem C66_fits : forall st room, set_ok st -> 64 <= room < two62 -> exists s, settings_encode st room = Some s.
Proof. exact fits_thm. Qed.
Print Assumptions C66_fits.

(** What is written stays in the buffer, and takes at most 40 bytes. *)
Theorem C66_size : forall st room s, set_ok st -> room < two62 -> settings_encode st room = Some s -> blen s <= room /\ blen s <= 40.
Proof. exact size_thm. Qed.
Print Assumptions C66_size.

Definition C66_st : settings := mk_set 70000 4096 max64 1 0 false.
Definition C66_s : list N := [4; 17; 1; 80; 0; 8; 1; 192; 0; 0; 0; 198; 113; 112; 106; 128; 1; 17; 112].

Example C66_fits_ex : set_ok C66_st /\ settings_encode C66_st 64 = Some C66_s /\ settings_encode C66_st 255 = Some C66_s /\
  settings_encode C66_st 10 = None /\ settings_encode (mk_set 4611686018427387903 4611686018427387903 4611686018427387903 1 1 false) 255 <> None.
Proof.
  split; [unfold set_ok, two62; simpl; repeat split; try lia; right; reflexivity|].
  split; [vm_compute; reflexivity|]. split; [vm_compute; reflexivity|]. split; [vm_compute; reflexivity|]. vm_compute. discriminate.
Qed.

(** A peer that has received no settings, and reads them on a control stream cut in any way, keeps
    exactly the values given, and zero for the others. *)
Theorem C66_peer : forall known st room s cs, set_ok st -> some_given st -> room < two62 -> settings_encode st room = Some s ->
  stream cs (0 :: s) -> uresult_of (remote_pieces false known cs ustate0 settings0) = Going [] None (kept st).
Proof. exact peer_thm. Qed.
Print Assumptions C66_peer.

Example C66_peer_ex : some_given C66_st /\ stream [[0; 4]; skipn 1 C66_s] (0 :: C66_s) /\
  uresult_of (remote_pieces false (fun _ => false) [[0; 4]; skipn 1 C66_s] ustate0 settings0) = Going [] None (mk_set 70000 4096 0 1 0 true).
Proof.
  split; [left; discriminate|]. split; [|vm_compute; reflexivity].
  split; [reflexivity|]. split; [|reflexivity]. unfold C66_s, bytes_ok. repeat (constructor; [reflexivity|]). constructor.
Qed.

(** The first bytes of the control stream of an endpoint are always written, and its peer learns that
    extended CONNECT is supported, and, exactly if datagrams are enabled, that they and one session of
    web transport are supported. *)
Theorem C66_init : forall known datagrams, exists s, init_control datagrams = Some s /\
  forall cs, stream cs s -> uresult_of (remote_pieces false known cs ustate0 settings0) =
    Going [] None (if datagrams then mk_set 1 0 0 1 1 true else mk_set 0 0 0 1 0 true).
Proof. exact init_thm. Qed.
Print Assumptions C66_init.

Example C66_init_ex : init_control false = Some [0; 4; 6; 1; 0; 7; 0; 8; 1] /\
  init_control true = Some [0; 4; 17; 1; 0; 7; 0; 8; 1; 51; 1; 192; 0; 0; 0; 198; 113; 112; 106; 1].
Proof. split; vm_compute; reflexivity. Qed.

(** FINDING: settings in which nothing is given are written as an empty frame, which is valid, but which
    the reading side of the same code refuses. *)
Theorem C66_empty_refuted : exists st s known, set_ok st /\ settings_encode st 255 = Some s /\
  uresult_of (remote_pieces false known [0 :: s] ustate0 settings0) = Stopped [265] settings0.
Proof. exact empty_refuted. Qed.
Print Assumptions C66_empty_refuted.

(** FINDING: a value of 2^62 or more is accepted and another one is read by the peer. *)
Theorem C66_limit_refuted : exists st s known st', settings_encode st 255 = Some s /\ se_table st < max64 /\
  uresult_of (remote_pieces false known [0 :: s] ustate0 settings0) = Going [] None st' /\ se_table st' <> se_table st.
Proof. exact limit_refuted. Qed.
Print Assumptions C66_limit_refuted.
