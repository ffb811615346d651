(** * C66, continued: event lists that are no music *)
From Verif Require Import PyBase PyLemmas SeqModel MusicModel.
From Verif Require Import SeqLemmas.

Definition is_begin (e : ev) : bool := match e with BeginTrack _ _ => true | _ => false end.
Lemma begins_of bs : Forall (fun p => is_begin (snd p) = true) bs -> begins bs = Err IndexError /\
  forall n e rest, is_begin e = false -> exists l, begins (bs ++ (n, e) :: rest) = Ok l /\ Forall2 (fun p b => snd p = BeginTrack (fst b) (snd b)) bs l.
Proof.
  induction 1 as [|(i & e0) bs H F (A & B)].
  - split; [reflexivity|]. intros n e rest E. exists []. split; [destruct e; try discriminate E; reflexivity|constructor].
  - cbn [snd] in H. destruct e0; try discriminate H. cbn [begins app]. rewrite A. split; [reflexivity|]. intros n e rest E. destruct (B n e rest E) as (l & -> & G). cbn [bind]. eexists. split; [reflexivity|]. constructor; [reflexivity|exact G].
Qed.
Lemma index_found events r : forall i, (exists m, r = Some m /\ In m (map fst events)) /\ (exists k, index_of events r i = Ok k) \/ (forall m, r = Some m -> ~ In m (map fst events)) /\ index_of events r i = Err ValueError.
Proof.
  induction events as [|(n & e) l IH]; intros i; cbn [index_of map fst In]; [right; split; [intros m _ []|reflexivity]|]. destruct r as [m|]; [|right; split; [discriminate|reflexivity]].
  destruct (Z.eqb_spec n m) as [->|N]; [left; split; [exists m; auto|eexists; reflexivity]|].
  destruct (IH (i + 1)) as [((m' & E & I) & K)|(X & K)]; [left; split; [exists m'; split; [exact E|right; exact I]|exact K]|right; split; [|exact K]]. intros m' E [Q|Q]; [congruence|exact (X m' E Q)].
Qed.

(** an empty list of events, and one that ends with the begin-track events, raise IndexError;
    one where a track begins nowhere in the list raises ValueError, whatever the other
    tracks are; and these are the only failures *)
Theorem C66_no_music : tracks_of [] = Err IndexError /\
  (forall i numbers bs, Forall (fun p => is_begin (snd p) = true) bs -> tracks_of ((i, DefTracks numbers) :: bs) = Err IndexError) /\
  (forall i numbers bs n e rest, Forall (fun p => is_begin (snd p) = true) bs -> is_begin e = false -> let events := (i, DefTracks numbers) :: bs ++ (n, e) :: rest in
    match tracks_of events with
    | Ok _ => forall k t r, In (k, BeginTrack t r) bs -> exists m, r = Some m /\ In m (map fst events)
    | Err x => x = ValueError /\ exists k t r, In (k, BeginTrack t r) bs /\ forall m, r = Some m -> ~ In m (map fst events)
    end).
Proof.
  split; [reflexivity|]. split.
  - intros i numbers bs F. unfold tracks_of. rewrite get_0. cbn [bind skipn]. rewrite (proj1 (begins_of bs F)). reflexivity.
  - intros i numbers bs n e rest F E events. unfold tracks_of. unfold events at 1. rewrite get_0. cbn [bind]. change (skipn 1 events) with (bs ++ (n, e) :: rest). destruct (proj2 (begins_of bs F) n e rest E) as (l & -> & G). cbn [bind]. cbv zeta.
    set (starts := map snd l). clearbody starts. match goal with |- context [foldM _ ?d l] => generalize d end. clearbody events. clear F E. revert l G. induction bs as [|p bs IH]; intros l G d; inversion G as [|? b ? l' H G']; subst; cbn [foldM]; [intros k t r []|].
    destruct p as (k0 & e0). cbn [snd] in H. subst e0. destruct (index_found events (snd b) 0) as [((m & ES & I) & (k & ->))|(X & ->)]; cbn [bind].
    + specialize (IH l' G' (dict_set d (fst b) (track_new (track_at events starts k)))). destruct (foldM _ _ l').
      * intros k1 t r [Q|Q]; [|exact (IH _ _ _ Q)]. injection Q as _ _ <-. exists m. split; [exact ES|exact I].
      * destruct IH as (-> & k1 & t & r & Q & Y). split; [reflexivity|]. exists k1, t, r. split; [right; exact Q|exact Y].
    + split; [reflexivity|]. exists k0, (fst b), (snd b). split; [left; reflexivity|exact X].
Qed.
Print Assumptions C66_no_music.
Example C66_no_music_ex : tracks_of [(0, DefTracks [0; 1]); (1, BeginTrack 1 (Some 7)); (2, Bare 0xFF)] = Err ValueError /\
  tracks_of [(0, DefTracks [0; 1]); (1, BeginTrack 1 (Some 3)); (2, Bare 0xFF); (3, Bare 0xFF)] <> Err ValueError /\ tracks_of [(0, DefTracks [0; 1]); (1, BeginTrack 1 (Some 1))] = Err IndexError.
Proof. split; [reflexivity|]. split; [vm_compute; discriminate|reflexivity]. Qed.
