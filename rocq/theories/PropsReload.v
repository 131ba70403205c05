(** C82: decoding into a document that already holds something. *)
From Verif Require Import Base BaseFacts Types Doc F64 Base64 Url UrlProofs SpecText SpecPath JsonText Codec SpecJson DocCodec Marshal Stream File SpecFile CodecProofs
  EncodeProofs PropsJson PropsFile PropsRoundTrip PropsChunk Reload DocReload ReloadFile.

(** ** The JSON step *)
Section Params.
Context (F : float_lib) (X : ext_lib).
Notation decode := (json_decode (c_Document F X)) (only parsing).

Lemma text_way text :
  (exists f r, act (c_Document F X) f /\ forall old, decode old text = Ok (f old, r)) \/ (exists e, forall old, decode old text = Err e) \/ (forall old, decode old text = Panic).
Proof.
  assert (G : forall v r, (exists f r', act (c_Document F X) f /\ forall old, (y <- dec (c_Document F X) old v ;; Ok (y, r)) = Ok (f old, r')) \/
    (exists e, forall old, (y <- dec (c_Document F X) old v ;; Ok (y, r : bytes)) = Err e) \/ (forall old, (y <- dec (c_Document F X) old v ;; Ok (y, r)) = Panic)).
  { intros v r. destruct (proj1 (st_Document F X) v) as [[f E]|[[e E]|E]].
    - left. exists f, r. split; [exact (act_dec _ v f E)|]. intros old. rewrite E. reflexivity.
    - right. left. exists e. intros old. rewrite E. reflexivity.
    - right. right. intros old. rewrite E. reflexivity. }
  unfold json_decode. destruct (scan start text) as [v r|cf|].
  - apply G.
  - destruct (at_eof cf) as [v|]; [apply G|right; left; eexists; reflexivity].
  - right. left. eexists. reflexivity.
Qed.

(** Whether decoding succeeds, with which error it fails and how much of the
    input it takes do not depend on the document decoded into. *)
Theorem C82_same_failure text old old' :
  match decode old text, decode old' text with
  | Ok (_, r), Ok (_, r') => r = r'
  | Err e, Err e' => e = e'
  | Panic, Panic => True
  | _, _ => False
  end.
Proof. destruct (text_way text) as [(f & r & _ & E)|[[e E]|E]]; rewrite !E; auto. Qed.

(** Texts decoded one after the other into the same document. *)
Fixpoint load_all (texts : list bytes) (d : Document) : res Document :=
  match texts with
  | [] => Ok d
  | t :: ts => p <- decode d t ;; load_all ts (fst p)
  end.
Lemma load_way texts : (exists f, act (c_Document F X) f /\ forall old, load_all texts old = Ok (f old)) \/ forall old y, load_all texts old <> Ok y.
Proof.
  induction texts as [|t ts IH]; [left; exists (fun x => x); split; [apply act_id; reflexivity|reflexivity]|]. cbn [load_all].
  destruct (text_way t) as [(f & r & A & E)|[[e E]|E]]; [|right; intros old y; rewrite E; discriminate..].
  destruct IH as [(g & B & IH)|IH]; [left; exists (fun x => g (f x)); split; [exact (act_comp _ g f _ B A (fun _ => eq_refl))|]|right]; intros old; [|intros y]; rewrite E; cbn [bind fst]; apply IH.
Qed.
Lemma load_app a b d : load_all (a ++ b) d = (d' <- load_all a d ;; load_all b d').
Proof. revert d. induction a as [|t a IH]; intros d; [reflexivity|]. cbn [app load_all]. destruct (decode d t) as [[y r]|e|]; cbn [bind fst]; [apply IH|reflexivity|reflexivity]. Qed.

(** Of a text that is decoded again later, the first decoding does not matter. *)
Theorem C82_repeats before t between d y :
  load_all (before ++ t :: between ++ [t]) d = Ok y <-> load_all (before ++ between ++ [t]) d = Ok y.
Proof.
  rewrite (load_app before (t :: between ++ [t])), (load_app before (between ++ [t])). destruct (load_all before d) as [d0| |]; [|reflexivity|reflexivity]. cbn [bind load_all].
  rewrite (load_app between [t] d0).
  destruct (text_way t) as [(f & r & A & E)|[[e E]|E]].
  - rewrite E. cbn [bind fst]. rewrite (load_app between [t]). destruct (load_way between) as [(g & B & G)|G].
    + rewrite !G. cbn [bind load_all]. rewrite !E. cbn [bind fst]. rewrite (proj2 (st_Document F X) f g A B). reflexivity.
    + split; intros H; exfalso; [destruct (load_all between (f d0)) eqn:Q|destruct (load_all between d0) eqn:Q]; try discriminate; exact (G _ _ Q).
  - rewrite E. cbn [bind]. split; [discriminate|]. destruct (load_all between d0); cbn [bind load_all]; try discriminate. rewrite E. discriminate.
  - rewrite E. cbn [bind]. split; [discriminate|]. destruct (load_all between d0); cbn [bind load_all]; try discriminate. rewrite E. discriminate.
Qed.
(** In particular decoding the same text again changes nothing. *)
Theorem C82_reload old text y rest : decode old text = Ok (y, rest) -> decode y text = Ok (y, rest).
Proof.
  destruct (text_way text) as [(f & r & A & E)|[[e E]|E]]; rewrite !E; try discriminate. intros Q. assert (f old = y /\ r = rest) as [<- <-] by (split; congruence).
  rewrite (settles_twice _ f (proj2 (st_Document F X)) A). reflexivity.
Qed.
End Params.
Print Assumptions C82_same_failure.
Print Assumptions C82_repeats.
Print Assumptions C82_reload.

(** ** Files *)
(** The outcome of Decode, the files it opens and the buffers and images it
    delivers depend on nothing but the buffers and images held before. *)
Theorem C82_outcome F X U fsys old old' b : doc_Buffers old = doc_Buffers old' -> doc_Images old = doc_Images old' ->
  fst (Decode F X U fsys old b) = fst (Decode F X U fsys old' b) /\
  match snd (Decode F X U fsys old b), snd (Decode F X U fsys old' b) with
  | Ok y, Ok y' => doc_Buffers y = doc_Buffers y' /\ doc_Images y = doc_Images y'
  | Err e, Err e' => e = e'
  | Panic, Panic => True
  | _, _ => False
  end.
Proof. exact (decode_depends F X U fsys old old' b). Qed.
Print Assumptions C82_outcome.

(** Buffers and images that are absent, embedded, or refer to a plain file name. *)
Definition settled_buffer (o : option Buffer) : Prop :=
  match o with
  | Some b => buf_URI b = ""%string \/ plain_uri (buf_URI b) \/ String.prefix "data:application/octet-stream;base64" (buf_URI b) = true
  | None => True
  end.
Definition settled_image (o : option Image) : Prop := match o with Some im => plain_image (Some im) | None => True end.
(** Decoding the same stream again into the document it produced opens the same
    files and changes nothing. *)
Theorem C82_decode_again_partial F X U fsys old b t y :
  Forall settled_buffer (doc_Buffers old) -> Forall settled_image (doc_Images old) ->
  Decode F X U fsys old b = (t, Ok y) -> Decode F X U fsys y b = (t, Ok y).
Proof.
  intros HB HI. apply decode_again.
  - eapply Forall_impl; [|exact HB]. intros [z|] H; [|exact I]. cbn [still_b]. unfold clean_b. destruct (buf_IsEmbeddedResource z) eqn:E; [reflexivity|].
    assert (Q : clean_uri U (buf_URI z) = buf_URI z).
    { destruct H as [H|[H|H]]; [rewrite H; reflexivity|apply plain_clean; exact H|]. unfold buf_IsEmbeddedResource, mimetypeApplicationOctet in E. congruence. }
    rewrite Q. destruct z; reflexivity.
  - eapply Forall_impl; [|exact HI]. intros [z|] H; [|exact I]. cbn [still_i]. unfold clean_i. destruct (img_IsEmbeddedResource z) eqn:E; [reflexivity|].
    assert (Q : clean_uri U (img_URI z) = img_URI z).
    { apply orb_false_iff in E. unfold mimetypeImagePNG, mimetypeImageJPG in E. destruct H as [H|[H|[H|H]]]; [rewrite H; reflexivity|apply plain_clean; exact H|..]; destruct E; congruence. }
    rewrite Q. destruct z; reflexivity.
Qed.
Print Assumptions C82_decode_again_partial.

Definition used_doc (uri : string) : Document := set_doc_Buffers [Some (set_buf_URI uri zero_Buffer)] zero_Document.
Definition no_uri_text : string := "{""asset"":{""version"":""2.0""},""buffers"":[{""byteLength"":1}]}".
Definition any_file : bytes -> bytes * option error := fun _ => (str_bytes "x", None).
Definition run_into (old : Document) (b : bufio) : list bytes * res Document := Decode sample_floats sample_exts sample_url (Some any_file) old b.
Definition result_of (p : list bytes * res Document) : Document := match snd p with Ok y => y | _ => zero_Document end.
Definition first_load : Document := Eval vm_compute in result_of (run_into (used_doc "a%2525b") (text_reader no_uri_text)).
Definition second_load : Document := Eval vm_compute in result_of (run_into first_load (text_reader no_uri_text)).
(** With other references it is false: an escaped name is unescaped each time. *)
Theorem C82_decode_again_refuted : exists F X U old b y y',
  Decode F X U (Some any_file) old b = ([str_bytes "a%25b"], Ok y) /\ Decode F X U (Some any_file) y b = ([str_bytes "a%b"], Ok y') /\ y <> y'.
Proof.
  exists sample_floats, sample_exts, sample_url, (used_doc "a%2525b"), (text_reader no_uri_text), first_load, second_load.
  split; [vm_compute; reflexivity|]. split; [vm_compute; reflexivity|]. intros E. apply (f_equal (fun d => map (option_map buf_URI) (doc_Buffers d))) in E. discriminate E.
Qed.
Print Assumptions C82_decode_again_refuted.

(** What the document holds is not just replaced: a binary file whose buffer is
    its second chunk is decoded into a document that held a buffer in a file, and
    the contents of that file are what comes out. *)
Definition glb_six : bufio := NewReader (mkReader [bin_file 8 kind_bin (str_bytes "abcdefgh")] ErrEOF false).
Definition stale_load : Document := Eval vm_compute in result_of (run_into (used_doc "data/b_1.bin") glb_six).
Definition fresh_load : Document := Eval vm_compute in result_of (run_into zero_Document glb_six).
Theorem C82_independent_refuted : exists F X U old b y z,
  Decode F X U (Some any_file) zero_Document b = ([], Ok z) /\ map (option_map buf_Data) (doc_Buffers z) = [Some (str_bytes "abcdef")] /\
  Decode F X U (Some any_file) old b = ([str_bytes "data/b_1.bin"], Ok y) /\ map (option_map buf_Data) (doc_Buffers y) = [Some (str_bytes "x")].
Proof.
  exists sample_floats, sample_exts, sample_url, (used_doc "data/b_1.bin"), glb_six, stale_load, fresh_load. repeat split; vm_compute; reflexivity.
Qed.
Print Assumptions C82_independent_refuted.

(** Loading one file over another, then the first again: the same as loading the
    second and then the first; but not the same as the first alone. *)
Definition text_a : bytes := str_bytes (q "{'asset':{'version':'2.0'},'nodes':[{'name':'a'}],'scenes':[{'name':'s','nodes':[0]}]}").
Definition text_b : bytes := str_bytes (q "{'asset':{'version':'2.0','generator':'g'},'scenes':[{'extras':1},{'name':'t'}],'scene':1,'meshes':[{'primitives':[]}]}").
Example C82_example :
  let load l := load_all sample_floats sample_exts l zero_Document in
  (exists d, load [text_a; text_b; text_a] = Ok d /\ load [text_b; text_a] = Ok d /\ doc_Scene d = Some 1 /\ map (option_map scn_Name) (doc_Scenes d) = [Some "s"%string]) /\
  (exists d, load [text_a] = Ok d /\ doc_Scene d = None) /\
  (exists e, load [text_a; str_bytes "{""scene"":""x""}"] = Err e).
Proof.
  cbv zeta. split; [|split].
  - eexists. split; [vm_compute; reflexivity|]. split; [vm_compute; reflexivity|]. split; reflexivity.
  - eexists. split; [vm_compute; reflexivity|]. reflexivity.
  - eexists. vm_compute. reflexivity.
Qed.
Example C82_hypotheses : Forall settled_buffer (doc_Buffers (used_doc "data/b_1.bin")) /\ Forall settled_image (doc_Images (used_doc "data/b_1.bin")) /\
  run_into (used_doc "data/b_1.bin") glb_six = ([str_bytes "data/b_1.bin"], Ok stale_load) /\ run_into stale_load glb_six = ([str_bytes "data/b_1.bin"], Ok stale_load).
Proof.
  split. { constructor; [|constructor]. right. left. exists (str_bytes "data/b_1.bin"). split; [|reflexivity]. exact plain_example. }
  split; [constructor|]. split; vm_compute; reflexivity.
Qed.
