(** C119: which colours the palettes have, and the palette display on strips
    shorter than the palette. *)
From Coq Require Import ZArith Lia List Bool.
From Coq Require Import ZifyBool.
From Verif Require Import CInt CIntFacts Packet NetMgr Fastled Maths Palette SpecColor PaletteFacts PropMath PropColor
  Device LedMgr SpecLed LedFacts RenderFacts Effects SpecEffect RgbFacts Show ShowFacts RsmRun PropShow PropAnim.
Import ListNotations.
Open Scope Z_scope.
Ltac Zify.zify_post_hook ::= Z.div_mod_to_equations.

(** ** The palettes by name *)
(** The eight full colours are the eighths of the colour circle. *)
Inductive tone := Red | Orange | Yellow | Green | Aqua | Blue | Purple | Pink.
Definition eighth (c : tone) : Z :=
  match c with Red => 0 | Orange => 1 | Yellow => 2 | Green => 3 | Aqua => 4 | Blue => 5 | Purple => 6 | Pink => 7 end.
Definition full (c : tone) : chsv := mkHSV (eighth c * 256 / 8) 255 255.
(** Half as strong and three quarters as bright. *)
Definition pastel (c : tone) : chsv := mkHSV (eighth c * 256 / 8) 127 192.
(** White; on the way from or to a colour it counts as this tone. *)
Definition white (c : tone) : chsv := mkHSV (eighth c * 256 / 8) 0 255.

Definition book : list (list chsv) :=
  map (fun c => [full c]) [Red; Orange; Yellow; Green; Aqua; Blue; Purple; Pink] ++
  [ map full [Red; Green; Blue];                                      (* rainbow *)
    map full [Red; Purple];                                           (* warm *)
    map full [Green; Blue];                                           (* cool *)
    map full [Yellow; Aqua];                                          (* yellow-green *)
    map full [Purple; Orange];                                        (* 80s Miami *)
    [mkHSV 33 241 249; mkHSV 247 188 255; mkHSV 201 225 160; mkHSV 153 251 150]; (* vaporwave *)
    [white Aqua; full Blue];                                          (* cool *)
    [full Red; white Red];                                            (* candy-cane *)
    [full Aqua; white Aqua];                                          (* winter-mint candy-cane *)
    map full [Red; Orange; Yellow];                                   (* fire *)
    map pastel [Red; Green; Blue];                                    (* pastel rainbow *)
    [mkHSV 132 255 255; full Purple; mkHSV 0 0 200];                  (* jazz cup: teal, purple, white *)
    map full [Purple; Yellow; Purple];                                (* yellow and double purp *)
    map full ([Red; Green; Blue] ++ [Red; Green; Blue]) ].            (* double rainbow *)
Definition page (k : Z) : list chsv := nth (Z.to_nat k) book [].

(** A packet that asks for palette [k] gets the palette of page [k]: its
    gradient shows the colours of the page in order, evenly spread. *)
Theorem C119_the_palettes : forall pl fl p i k, asks_for pl p i k -> k < number_of_palettes ->
  exists pal, packet_palette pl p = Ok pal /\ count pal = count (page k) /\
  forall n, 0 <= n < count (page k) -> GetGradient fl pal (n * (65535 / count (page k))) true = Ok (colour (page k) n).
Proof.
  intros pl fl p i k A K. destruct (packet_palette_eval pl p i k A K) as [PP (Nn & Cn & Fw)].
  exists (nth (Z.to_nat k) palettes []). split; [exact PP|].
  assert (E : nth (Z.to_nat k) palettes [] = page k).
  { assert (B : palettes = book) by reflexivity. unfold page. rewrite <- B. reflexivity. }
  rewrite E in *. clear E PP. generalize dependent (page k). intros q Nn Cn Fw. split; [reflexivity|]. intros n Hn.
  destruct (Z.eq_dec (count q) 1) as [C1|C1].
  - replace n with 0 by lia. destruct q as [|c [|c' l]]; [congruence|reflexivity|unfold count in C1; cbn [length] in C1; lia].
  - apply (C47_gradient_hits_colours fl q true n).
    + split; [lia|]. split; [unfold segments; lia|assumption].
    + lia.
    + change (seglen q true) with (65535 / count q). nia.
Qed.
Print Assumptions C119_the_palettes.

(** Pages 0 to 7 are single colours: at every position. *)
Theorem C119_the_single_colours : forall pl fl p i c pos, asks_for pl p i (eighth c) -> 
  exists pal, packet_palette pl p = Ok pal /\ GetGradient fl pal pos true = Ok (full c).
Proof.
  intros pl fl p i c pos A.
  destruct (packet_palette_eval pl p i _ A ltac:(change number_of_palettes with 22; destruct c; cbn; lia)) as [PP _].
  eexists. split; [exact PP|]. destruct c; reflexivity.
Qed.
Print Assumptions C119_the_single_colours.

(** There are as many pages as palettes, and no two are the same. *)
Theorem C119_no_two_alike : Z.of_nat (length book) = number_of_palettes /\ NoDup book.
Proof.
  split; [reflexivity|]. unfold book. cbn [map app].
  repeat (apply NoDup_cons; [let H := fresh in intro H; cbn in H; 
    repeat (destruct H as [H|H]; [vm_compute in H; discriminate H|]); exact H|]). apply NoDup_nil.
Qed.
Print Assumptions C119_no_two_alike.

Example C119_jazz_cup : forall fl, exists pal, packet_palette Host (effect_pkt 50 33 1 19) = Ok pal /\
  GetGradient fl pal 43690 true = Ok (mkHSV 0 0 200).
Proof.
  intros fl. destruct (C119_the_palettes Host fl (effect_pkt 50 33 1 19) 33 19) as (pal & P & _ & G).
  - apply effect_pkt_asks; unfold is_byte; lia.
  - reflexivity.
  - exists pal. split; [exact P|]. apply (G 2). vm_compute; split; [discriminate|reflexivity].
Qed.

(** ** Strips shorter than the palette *)

(** On a strip with fewer LEDs than its palette of at most four colours has
    colours, all LEDs show the same colour, and it runs through the palette
    with time: 23 of 65536 positions every 2 ms. *)
Theorem C119_palette_display_in_time : forall pl fl o p i k, fl_ok fl ->
  asks_for pl p i k -> k < number_of_palettes -> selects pl i 33 ->
  let pal := nth (Z.to_nat k) palettes [] in
  forall s t, led_count s < count pal <= 4 -> is_time t ->
  exists c, GetGradient fl pal (t / 2 * 23 mod 65536) true = Ok c /\
    forall j, 0 <= j < led_count s ->
    current_pixel pl fl (built (builtin o)) p s j t = Ok (fl_hsv2rgb fl (by_brightness s c)).
Proof.
  intros pl fl o p i k OK A K Se pal s t Q T.
  destruct (packet_palette_eval pl p i k A K) as [PP (Nn & Cn & Fw)]. fold pal in PP, Nn, Cn, Fw.
  assert (R : 0 <= t / 2 * 23 mod 65536 < 65536) by (apply Z.mod_pos_bound; lia).
  destruct (gradient_ok fl pal (t / 2 * 23 mod 65536) true OK ltac:(lia) Fw R) as (c & G & W).
  exists c. split; [exact G|]. intros j J.
  unfold current_pixel. destruct (current_selected pl o p i k 33 A Se) as [-> _]. cbn [obind].
  change (GetRGB pl fl (effect_number o 33) j t s p) with (DisplayColorPalette_GetRGB pl fl j t s p).
  unfold DisplayColorPalette_GetRGB. rewrite PP. cbn [obind].
  assert (SZ : Size pal = count pal) by (unfold Size, psize, count in *; rewrite u8_id; lia).
  rewrite SZ. destruct ((led_count s <? count pal) && (count pal <=? 4)) eqn:E; [|lia].
  replace (u16 (u32 (t / 2 * 23))) with (t / 2 * 23 mod 65536).
  - rewrite G. cbn [obind]. rewrite by_brightness_eq by exact W. reflexivity.
  - unfold u16, u32. generalize (t / 2 * 23). intros x. clear. lia.
Qed.
Print Assumptions C119_palette_display_in_time.

(** So a strip of one LED does show every colour of a two-colour palette: at
    the start the first, and 2850 ms later the second, up to one step of the
    gradient. *)
Example C119_one_led :
  asks_for Host (effect_pkt 50 33 1 9) 33 9 /\ 9 < number_of_palettes /\ selects Host 33 33 /\
  led_count (StripDescription 1 []) < count (nth (Z.to_nat 9) palettes []) <= 4 /\
  2850 / 2 * 23 mod 65536 = 32775 /\ 65535 / 2 = 32767.
Proof.
  split; [apply effect_pkt_asks; unfold is_byte; lia|]. split; [reflexivity|]. split; [split; [reflexivity|lia]|].
  split; [vm_compute; split; [reflexivity|discriminate]|]. split; reflexivity.
Qed.
