(** The sample proof of the repository is accepted, with the real hash functions. *)
From Coq Require Import ZArith String Bool List Lia Arith Ring Field Uint63.
From Verif Require Import Params Go Curve Api FrOps Lib Steps Agg NumThy FField FpField P_Fr SpecCurve SpecHash SpecMisc SpecVerify SpecSha
  SpecSample P_Curve P_Misc P_Msm P_Dom P_Step P_Exec P_Eval P_Verify P_VSpec P_Acc P_Comp P_Accept P_Honest P_Complete P_PipeOk P_Limb
  P_RunEx P_Mont P_Jac P_Refl.
Import ListNotations.
Open Scope Z_scope.

Definition sam_O : oracles := {|
  o_keccak := keccak256; o_sha256 := sha256; o_smul_degen := fun _ _ _ => None; o_pairing := fun _ => true;
  o_ecdsa := fun _ _ _ _ _ => false |}.
Definition sam_zs : list Z := Eval vm_compute in sample_target ++ [sample_verify].

(** ** Instance commitment *)
Definition sam_kd : Z := 21018549926786911420919261871844456760738199621624594828144407595472474813958.
Definition sam_ix : Z := 14518669122153204107438001167275775392293121025028421520190945678452919453116.
Definition sam_iy : Z := 17093993445643899230068359428052269750701581214259397668825355106622530890359.
Lemma sam_keccak : keccak256 (encoding (map (fun z => z mod p_mod) sam_zs)) mod 2 ^ 256 mod r_mod = sam_kd.
Proof. vm_compute. reflexivity. Qed.
Definition lag_l : lpt := Eval vm_compute in tol (lagrange_x, lagrange_y).
Definition sam_i : lpt := Eval vm_compute in tol (sam_ix, sam_iy).
Lemma sam_ic_chk : jchk (Z.to_pos sam_kd) lag_l sam_i = true. Proof. vm_compute. reflexivity. Qed.
Lemma sam_ic : pmul sam_kd (Aff lagrange_x lagrange_y) = Aff sam_ix sam_iy.
Proof.
  destruct (jchk_ok _ _ _ sam_ic_chk) as [_ E].
  assert (E1 : topt lag_l = Aff lagrange_x lagrange_y) by (vm_compute; reflexivity).
  assert (E2 : topt sam_i = Aff sam_ix sam_iy) by (vm_compute; reflexivity).
  rewrite E1, E2 in E. unfold pmul.
  assert (K : sam_kd mod r_mod = Zpos (Z.to_pos sam_kd)) by (vm_compute; reflexivity). rewrite K. exact E.
Qed.
Local Opaque pmul pmul_pos.

(** ** Transcript *)
Definition sam_dig : list Z := [77663131676008216237194513049067476533394157116561124136468786248808829350108;
   90048707054747403396187511386192569917725945819210951427769300181886522653033;
   35947246510341256689030810779187506879620925331076659235110282949343705277226;
   75283366891590868959662365592739452581999624697727389069842268414937685735614;
   72929135495479864292526481245175962726022550302326514435142976242989617370568;
   55164783199537683482973473453309160056071999410865788024810838560779540584748;
   114848593081651539669059667492519705937844336715453373329973581407890990349802;
   76361552806221467407747954991013671983913824472343928455373202000197410901155].
Lemma sam_transcript : transcript_values sam_O sam_ix sam_iy sample_proof = sam_dig.
Proof. vm_compute. reflexivity. Qed.
Lemma tv_ext O O' x y zs : (forall m, o_sha256 O m = o_sha256 O' m) -> transcript_values O x y zs = transcript_values O' x y zs.
Proof.
  intros H. unfold transcript_values.
  assert (D : forall m, SpecHash.digest O m = SpecHash.digest O' m) by (intros m; unfold SpecHash.digest; rewrite H; reflexivity).
  generalize [vk_constant; Z.abs x; Z.abs y] (cut schedule (map Z.abs zs)). intros l cs. revert l. unfold SpecHash.chain.
  induction cs as [|c t IH]; intros l; [reflexivity|].
  cbn [chain_messages]. cbv zeta. cbn [map]. rewrite D, IH. reflexivity.
Qed.
Notation sth := 11998403060490390570455295813295651267749063915313021105374173689081403863257.
Notation sbe := 2495735567390302507201888405163469563532488217546814052976483435583288670565.
Notation sga := 14059003638501981466784405033930231791072560930660624891412078762767896781609.
Notation sy := 9618638276073043292923148356967627316354531496479286038747655855210260248763.
Notation sx := 7264406879962038625787264009404137460377457101078411404048363683262191883717.
Notation syy := 11388297455859133038480661962794609878975270610033719337414430187627923593514.
Notation sv := 5407378722455163557827638766233330495102514713373201611482560475011947871717.
Notation su := 10696824190703641741008737755241846718268731271095825424278589440469985414304.
Notation sxn := 13536113092063662716767487025475948363974506326856541562065140807318283334095.
Lemma c_th : fc (nth 0 sam_dig 0) = fc sth. Proof. apply phi_eq_iff. vm_compute. reflexivity. Qed.
Lemma c_be : fc (nth 1 sam_dig 0) = fc sbe. Proof. apply phi_eq_iff. vm_compute. reflexivity. Qed.
Lemma c_ga : fc (nth 2 sam_dig 0) = fc sga. Proof. apply phi_eq_iff. vm_compute. reflexivity. Qed.
Lemma c_y : fc (nth 3 sam_dig 0) = fc sy. Proof. apply phi_eq_iff. vm_compute. reflexivity. Qed.
Lemma c_x : fc (nth 4 sam_dig 0) = fc sx. Proof. apply phi_eq_iff. vm_compute. reflexivity. Qed.
Lemma c_yy : fc (nth 5 sam_dig 0) = fc syy. Proof. apply phi_eq_iff. vm_compute. reflexivity. Qed.
Lemma c_v : fc (nth 6 sam_dig 0) = fc sv. Proof. apply phi_eq_iff. vm_compute. reflexivity. Qed.
Lemma c_u : fc (nth 7 sam_dig 0) = fc su. Proof. apply phi_eq_iff. vm_compute. reflexivity. Qed.

Lemma sam_sqs : sqs 23 sx = sxn. Proof. vm_compute. reflexivity. Qed.
Lemma sam_xn : fexp (fc sx) dom_n = fc sxn.
Proof. unfold dom_n. change 23 with (Z.of_nat 23). rewrite sqs_ok, sam_sqs. reflexivity. Qed.
Lemma fd_def (a b : Fr) : (a / b = a * frinv b)%fr. Proof. reflexivity. Qed.
Lemma dom_lit : fc dom_n = fc 8388608. Proof. reflexivity. Qed.
Lemma dl_0 : fexp delta 0 = fc 1. Proof. unfold delta. rewrite <- fexp_fc by discriminate. apply phi_eq_iff. vm_compute. reflexivity. Qed.
Lemma dl_1 : fexp delta 1 = fc 4131629893567559867359510883348571134090853742863529169391034518566172092834. Proof. unfold delta. rewrite <- fexp_fc by discriminate. apply phi_eq_iff. vm_compute. reflexivity. Qed.
Lemma dl_2 : fexp delta 2 = fc 8910878055287538404433155982483128285667088683464058436815641868457422632747. Proof. unfold delta. rewrite <- fexp_fc by discriminate. apply phi_eq_iff. vm_compute. reflexivity. Qed.
Lemma dl_3 : fexp delta 3 = fc 11166246659983828508719468090013646171463329086121580628794302409516816350802. Proof. unfold delta. rewrite <- fexp_fc by discriminate. apply phi_eq_iff. vm_compute. reflexivity. Qed.
Lemma dl_4 : fexp delta 4 = fc 284840088355319032285349970403338060113257071685626700086398481893096618818. Proof. unfold delta. rewrite <- fexp_fc by discriminate. apply phi_eq_iff. vm_compute. reflexivity. Qed.
Lemma dl_5 : fexp delta 5 = fc 21134065618345176623193549882539580312263652408302468683943992798037078993309. Proof. unfold delta. rewrite <- fexp_fc by discriminate. apply phi_eq_iff. vm_compute. reflexivity. Qed.
Lemma dl_6 : fexp delta 6 = fc 5625741653535312224677218588085279924365897425605943700675464992185016992283. Proof. unfold delta. rewrite <- fexp_fc by discriminate. apply phi_eq_iff. vm_compute. reflexivity. Qed.
Local Opaque phi fmul fadd fsub fopp fdiv finv fzpow fexp omega delta dom_n.

(** ** Rotations, helper values, Lagrange values *)
Lemma r_m6 : rot (fc sx) (-6) = fc 2755991566754794821402661978205277779858776434557407170600476456967630014365. Proof. unfold rot. rewrite <- k_m6. freq. Qed.
Lemma r_m1 : rot (fc sx) (-1) = fc 2572884458765695489335413487424853060986667413015826749799400647413574604597. Proof. unfold rot. rewrite <- k_m1. freq. Qed.
Lemma r_0 : rot (fc sx) (0) = fc 7264406879962038625787264009404137460377457101078411404048363683262191883717. Proof. unfold rot. rewrite <- k_0. freq. Qed.
Lemma r_1 : rot (fc sx) (1) = fc 3769814825947497074725095511348560203724083709398777150806846649728650302540. Proof. unfold rot. rewrite <- k_1. freq. Qed.
Lemma r_2 : rot (fc sx) (2) = fc 20871450609594740762513309709368183294956832807526078918323986498623508578331. Proof. unfold rot. rewrite <- k_2. freq. Qed.
Lemma inv_is (d a : Fr) : (a * d)%fr = 1%fr -> frinv d = a.
Proof.
  intros H. assert (N : d <> 0%fr) by (intros C; apply fr_1_0; rewrite <- H, C; ring).
  transitivity (a * d / d)%fr; [rewrite H; field; exact N | field; exact N].
Qed.
Lemma lag_is (w n xn d L : Fr) : (n * d)%fr <> 0%fr -> (w * xn)%fr = (L * (n * d))%fr -> (w / n * (xn / d))%fr = L.
Proof.
  intros N H. assert (N1 : n <> 0%fr) by (intros C; apply N; rewrite C; ring). assert (N2 : d <> 0%fr) by (intros C; apply N; rewrite C; ring).
  transitivity (w * xn / (n * d))%fr; [field; split; assumption|]. rewrite H. field. split; assumption.
Qed.
Lemma h_0 : frinv (rot (fc sx) (-6) - rot (fc sx) (0))%fr = fc 14682075548635262302074385051110702234086274396931195933546742286128764358125. Proof. apply inv_is. rewrite r_m6, r_0. freq. Qed.
Lemma h_1 : frinv (rot (fc sx) (-6) - rot (fc sx) (1))%fr = fc 5970944479539763667607302383227109670115664003990899249555645330207628539815. Proof. apply inv_is. rewrite r_m6, r_1. freq. Qed.
Lemma h_2 : frinv (rot (fc sx) (0) - rot (fc sx) (-6))%fr = fc 7206167323204012920172020694146572854462090003484838410151461900447044137492. Proof. apply inv_is. rewrite r_0, r_m6. freq. Qed.
Lemma h_3 : frinv (rot (fc sx) (0) - rot (fc sx) (1))%fr = fc 18300725921111785381142905892564341189078252048168893413679182768065165458873. Proof. apply inv_is. rewrite r_0, r_1. freq. Qed.
Lemma h_4 : frinv (rot (fc sx) (1) - rot (fc sx) (-6))%fr = fc 15917298392299511554639103362030165418432700396425135094142558856368179955802. Proof. apply inv_is. rewrite r_1, r_m6. freq. Qed.
Lemma h_5 : frinv (rot (fc sx) (1) - rot (fc sx) (0))%fr = fc 3587516950727489841103499852692933899470112352247140930019021418510643036744. Proof. apply inv_is. rewrite r_1, r_0. freq. Qed.
Lemma h_6 : frinv (rot (fc sx) (-1) - rot (fc sx) (0))%fr = fc 16151655324356327614760014858525704209887167769008678047573542023792762405117. Proof. apply inv_is. rewrite r_m1, r_0. freq. Qed.
Lemma h_7 : frinv (rot (fc sx) (0) - rot (fc sx) (-1))%fr = fc 5736587547482947607486390886731570878661196631407356296124662162783046090500. Proof. apply inv_is. rewrite r_0, r_m1. freq. Qed.
Lemma h_17 : frinv (rot (fc sx) (0) - rot (fc sx) (2))%fr = fc 8022579757513435116576328365390377243723859585422666855272672472206173978140. Proof. apply inv_is. rewrite r_0, r_2. freq. Qed.
Lemma h_18 : frinv (rot (fc sx) (1) - rot (fc sx) (2))%fr = fc 18424665392613454736987314109345836106668473963999153826397914692375159257895. Proof. apply inv_is. rewrite r_1, r_2. freq. Qed.
Lemma h_19 : frinv (rot (fc sx) (2) - rot (fc sx) (0))%fr = fc 13865663114325840105670077379866897844824504814993367488425531714369634517477. Proof. apply inv_is. rewrite r_2, r_0. freq. Qed.
Lemma h_20 : frinv (rot (fc sx) (2) - rot (fc sx) (1))%fr = fc 3463577479225820485259091635911438981879890436416880517300289494200649237722. Proof. apply inv_is. rewrite r_2, r_1. freq. Qed.
Lemma h_8 : frinv ((fc su - rot (fc sx) (-1)) * ((fc su - rot (fc sx) 2) * 1))%fr = fc 1419367324747928750740274367894771235288461851295498307475706487306261727016. Proof. apply inv_is. rewrite r_m1, r_2. freq. Qed.
Lemma lg_0 : lagrange (fc sx) (0) = fc 5707748190585141439752460049259769355677576232325499685890888944905271149423. Proof. unfold lagrange. rewrite sam_xn, dom_lit, <- k_0. apply lag_is; [frne | freq]. Qed.
Lemma lg_m6 : lagrange (fc sx) (-6) = fc 11689593922861133887200066459481418654607356864746905626000232770614216718433. Proof. unfold lagrange. rewrite sam_xn, dom_lit, <- k_m6. apply lag_is; [frne | freq]. Qed.
Lemma lg_m5 : lagrange (fc sx) (-5) = fc 19387783161554357341921940911084468327547176706575548905518836360106050064187. Proof. unfold lagrange. rewrite sam_xn, dom_lit, <- k_m5. apply lag_is; [frne | freq]. Qed.
Lemma lg_m4 : lagrange (fc sx) (-4) = fc 2476626289238578204609570993403947988008457085418248697797844941324301300009. Proof. unfold lagrange. rewrite sam_xn, dom_lit, <- k_m4. apply lag_is; [frne | freq]. Qed.
Lemma lg_m3 : lagrange (fc sx) (-3) = fc 18722683493784403176336951594313758589329400787912550261272888155103625800384. Proof. unfold lagrange. rewrite sam_xn, dom_lit, <- k_m3. apply lag_is; [frne | freq]. Qed.
Lemma lg_m2 : lagrange (fc sx) (-2) = fc 6496776828228921447657185819640921303649571797651136931499664504670514728878. Proof. unfold lagrange. rewrite sam_xn, dom_lit, <- k_m2. apply lag_is; [frne | freq]. Qed.
Lemma lg_m1 : lagrange (fc sx) (-1) = fc 7262967178269634502214584662631180779259460182124420719996114193736337341167. Proof. unfold lagrange. rewrite sam_xn, dom_lit, <- k_m1. apply lag_is; [frne | freq]. Qed.
Lemma la_is : l_active (fc sx) = fc 21516540613420072329045322540473404711792034177235326232707235820748188029411.
Proof. unfold l_active, l_last, l_blind. cbv [map sum fold_right]. rewrite lg_m6, lg_m5, lg_m4, lg_m3, lg_m2, lg_m1. freq. Qed.

(** ** The quotient *)
Lemma quot_is (a b c : Fr) : b <> 0%fr -> a = (c * b)%fr -> (a / b)%fr = c.
Proof. intros N ->. field. exact N. Qed.
Notation sh := 18236718830889372358620508748939082284258422158604894293924155411313894246989.
Lemma sam_quotient : quotient (word sample_proof) (fc sth) (fc sbe) (fc sga) (fc sx) (fc sy) = fc sh.
Proof.
  unfold quotient. apply quot_is; [rewrite sam_xn; frne|]. rewrite sam_xn.
  unfold expressions, permutation, lookups, lookup, lookup_table, chunk, gates, gate_main, SpecVerify.limbs, pick, l_0, l_last.
  rewrite lg_0, lg_m6, la_is.
  cbv [app map prod sum fold_right combine length seq filter negb Z.eqb Pos.eqb horner fold_left word nth sample_proof Z.of_nat Pos.of_succ_nat Z.mul Pos.mul Pos.add Z.pow Z.pow_pos Pos.iter Pos.succ].
  rewrite dl_0, dl_1, dl_2, dl_3, dl_4, dl_5, dl_6.
  freq.
Qed.

(** ** The opening *)
Notation sop := 21147276235438245106538451154094232271190030085887596632745409482267565260819.
Lemma sam_opening : opening (fc syy) (fc sv) (fc sx) (fc su) (queries sample_proof (sam_ix, sam_iy) (fc sh) (fc sx)) = fc sop.
Proof.
  unfold opening, factor. cbv [first_rots queries]. unfold vanish, interpolate, basis.
  cbv [without all_rots filter existsb negb orb Z.eqb Pos.eqb map app combine seq vk_fixed vk_sigma single h_poly p_evals prod sum fold_right horner fold_left
    word nth sample_proof]; rewrite !fd_def.
  rewrite ?h_8, ?h_0, ?h_1, ?h_2, ?h_3, ?h_4, ?h_5, ?h_6, ?h_7, ?h_17, ?h_18, ?h_19, ?h_20.
  rewrite r_m6, r_m1, r_0, r_1, r_2.
  freq.
Qed.

(** ** The commitment terms *)
Fixpoint pows_ok (c : Fr) (l : list Z) : Prop :=
  match l with [] => True | a :: t => fc a = match t with [] => 1%fr | b :: _ => (c * fc b)%fr end /\ pows_ok c t end.
Lemma powers_S c m : powers c (S m) = fexp c (Z.of_nat m) :: powers c m.
Proof. unfold powers. rewrite seq_S, rev_app_distr. reflexivity. Qed.
Lemma pows_is c l : pows_ok c l -> powers c (length l) = map fc l.
Proof.
  induction l as [|a l IH]; intros H; [reflexivity|]. cbn [length map]. destruct H as [H1 H2]. specialize (IH H2). rewrite powers_S, IH.
  apply cons_eq'; [|reflexivity]. rewrite H1. destruct l as [|b l]; [reflexivity|]. cbn [length] in *. rewrite fexp_S. rewrite powers_S in IH.
  pose proof (f_equal (hd 0%fr) IH) as E. cbn [map hd] in E. rewrite E. reflexivity.
Qed.
Definition pyy : list Z := [6639102449044690121321357311412067885420633187599401202957681257618259684089;
   3969164176083555762152516525626627375901578417623865254003456185881943026097;
   15536907692703519239216622846656302390358878951644951224253484972348469158118;
   19993615534781208277950827959664122740391909058286941687336806474184548741462;
   17427386692607151811135762503045750220549058035075694120128447301393625166276;
   4203004502272909994692184063709043694048480693422540060943087390262510791200;
   2200087945089139518812159505874498391431702830323465102450485031717115787589;
   11481376174664104104121591726495314983873853559227812058701982640623421325011;
   5447292827075020981285530765126544247180365923807412573713492042985015198583;
   18692710557515825385710385241086126921689957423407234058670916411977081046414;
   11377141363446226331113956050347754742568498638094655123976571813561489182976;
   16649420956713555878495852995626174669079215782542168837836007711299772097030;
   6740659223177554393024994030199925722677851305270685483197974994983144710190;
   10436036572394084780953945664587319654532536384147454164356369349278473725503;
   15984428114155457667776752345916376896495440683290960897087818567017738083203;
   20250164040405549516727895029088985147748837329629886283260456568075996768121;
   15121402393593626845802058484860143887333359412810719198236318291867719071170;
   19022348822329009385783324680476126254778843988267074542769715535869247174873;
   19477303357418265972674977577183668987103189491336231124027089537001171222642;
   4420978540749026870185098509843332335480507519725601230577259696437772027037;
   17297349911243266424561967809238402710496825191612729523052995487189263159619;
   6527154490105444763271692821647343161100929981033260589935412303513553190757;
   17222632805915603767835795708740371409723092840554673004360396749179666097696;
   19425643071604289807817474067212227814266590276694329986562732886146885565469;
   11119516147936949365663119509747149973954367630905256186378003349933631580976;
   20078355907223962791291694670162048135994464106779672861815047711603957691163;
   17350370697758071059667885816258548376786558660696722475210390370099460650900;
   9212338347850912884483006505183764134971376073300208400144366372576538997831;
   11388297455859133038480661962794609878975270610033719337414430187627923593514;
   1].
Definition pv : list Z := [21700899630844042800025198414990894768465165076286022772327050490821643453994;
   12165494428669320595828617821079947727227888845559492577525826452065226833664;
   11989270714275542383801922206776617162074632645167813803678620843313968838526;
   5407378722455163557827638766233330495102514713373201611482560475011947871717;
   1].
Lemma pyy_ok : pows_ok (fc syy) pyy. Proof. repeat (split; [freq|]). exact Logic.I. Qed.
Lemma pv_ok : pows_ok (fc sv) pv. Proof. repeat (split; [freq|]). exact Logic.I. Qed.
Lemma pows_tl c a l : pows_ok c (a :: l) -> pows_ok c l. Proof. intros [_ H]. exact H. Qed.
Fixpoint drop_ok c n l : pows_ok c l -> pows_ok c (skipn n l) :=
  match n, l with
  | O, _ => fun H => H
  | S _, [] => fun H => H
  | S m, _ :: t => fun H => drop_ok c m t (proj2 H)
  end.
Lemma powyy n : (n <= length pyy)%nat -> powers (fc syy) n = map fc (skipn (length pyy - n) pyy).
Proof.
  intros H. rewrite <- (pows_is _ _ (drop_ok _ (length pyy - n) _ pyy_ok)). f_equal. rewrite skipn_length. lia.
Qed.

Definition sam_pts : list (Z * Z) := Eval vm_compute in
  map (com sample_proof) [12; 13; 14; 8; 10]%nat ++ [(sam_ix, sam_iy)] ++ map (com sample_proof) [0; 1; 2; 3; 5; 9; 11]%nat ++ vk_fixed ++ vk_sigma ++
  map (com sample_proof) [19; 20; 21; 18; 4; 15; 16; 17; 6; 7]%nat ++ [W sample_proof; W' sample_proof].
Definition sam_ks : list Z :=
  [9049146828814203080202372060653694775861929912651132817581134794888341232901;
   9813104354079790631006477002458436461906241683582220911161646165586026536150;
   21700899630844042800025198414990894768465165076286022772327050490821643453994;
   5674878711142187267510331411283764287920493925131438644382823940887663510438;
   9000299646405388923429221523037245475354187860875936409184153156450573340414;
   8287689786888319066037473309439426431340298786054322650624464661631712959663;
   438950712603220053534953614253769767154392244592165931898263843422616018458;
   14705310348825488620432392294036686093370305005786284380896434298383512289577;
   11908603662547708819729696661068707266537324723799373462771799487951520851777;
   18822369823251420051370555951935997745888910087211531902602315723764237427301;
   2182671923723479453157661997098557346944065560622980409214444831150139419337;
   17326235920663298185294015529597618439866835011545312567759238477922318481112;
   11127860342224214530643860668453611082149588925594247187606505345392376487667;
   1819517196247220779233433695225879237069686796141894006521338428920825830121;
   12611250094683320969010436043416889793224220928340750687168077034321443049831;
   5066400859179784476290990962740820269334022438523375898259593671931647368036;
   2915624919028243432020487928719694313423882420965989931911476043382411612098;
   10371477000092725750115317849751988809805888228705343047556863533582388995572;
   12789793403503556019227325930595645302477482752969508172602321274609929655626;
   2515854810513907365072467636160963465609445837212229373330161156381921092354;
   4797071384158858184157630778127624123556105265246297833774459461867911721048;
   1449128115888071432691966028951455659215265470177842483372930952439797999176;
   4959760696044375827161219724978783477338181770764175258383092824536115005366;
   11211966933958610062035859213893073428509041072375023892365115246195457755599;
   6712764395876676354917416280333260564140758407768615121608335748568006579069;
   6334660590516541199672589542670674427697937565336854117316741263773916975029;
   3387180935516195073500700264250499425874228920802099660715441453294329094190;
   10828128036767322742463390813890449301187798248622623618153398156373923404039;
   3283334883225189878520642674482845608565340225320288834204471887901526586333;
   242635694018251274541868134115276013091501182282735903130255508362636180572;
   6724876341076915223313287008894894627857027362887112021170601934226535782829;
   7478598293366719679167699096150864141712129577491333507075074000586042951832;
   10096307749599175430207136271280102628418090756540640339828199328730164216953;
   15697282088970304805183720089458785040926908946836686097757201570416705022955;
   8169488887857676584916695013401928527848301533435545565957295313382892638794;
   15720376793575710506995819988104460531527721973182990178879879787804284898870;
   12827428276258813722928289112586854707433665080550434438755492287920055212571;
   13093355914461471834370503413973286715832491553302279260749543922319078594464;
   10412755196932907107356568767662955561267322491830047811434470683723581441159;
   15897094614985494139835032125499590006991840996786932776797557825176704773787;
   16043774134206371156490697794553085964352339875781155958686406445645536327219;
   12683150336071531095707735592088863523894707331900330564395477027035222562568;
   8189201134583945366915045918093564521795453866684252438436454176495396409498;
   1026764419059182683781029586822182961881475662694923634434314562042232676131;
   10696824190703641741008737755241846718268731271095825424278589440469985414304].
Lemma sam_coms : let c := com sample_proof in
  [c 12; c 13; c 14; c 8; c 10; (sam_ix, sam_iy); c 0; c 1; c 2; c 3; c 5; c 9; c 11]%nat ++ vk_fixed ++ vk_sigma ++
  [c 19; c 20; c 21; c 18; c 4; c 15; c 16; c 17; c 6; c 7; c 50; c 51]%nat = sam_pts.
Proof. vm_compute. reflexivity. Qed.
Lemma sam_final : final_terms sample_proof (sam_ix, sam_iy) (fc sh) (fc sx) (fc syy) (fc sv) (fc su) = combine sam_pts (map fc sam_ks).
Proof.
  rewrite <- sam_coms. cbv zeta.
  unfold final_terms, com_terms, set_terms, factor, W, W'. cbv [first_rots queries single h_poly].
  generalize (com sample_proof). intros c. unfold vanish.
  change (length [_; _; _; _; _]) with (length pv). rewrite (pows_is _ _ pv_ok).
  cbv [without all_rots filter existsb negb orb Z.eqb Pos.eqb map app combine seq vk_fixed vk_sigma single h_poly p_com prod fold_right length flat_map SpecVerify.scale pv].
  rewrite !powyy by (cbv; lia).
  cbv [skipn length Nat.sub pyy map combine flat_map SpecVerify.scale app pv sam_ks]. rewrite !fd_def.
  rewrite ?h_8, ?sam_xn, ?r_m6, ?r_m1, ?r_0, ?r_1, ?r_2.
  repeat (apply cons_eq'; [apply pair_eq; [reflexivity | freq]|]). reflexivity.
Qed.

(** ** The sums, checked on machine integers *)
Definition sam_ord : list ((Z * Z) * Z) := Eval vm_compute in
  map (fun i => (nth i sam_pts (0, 0), nth i sam_ks 0)) add_order.
Lemma sam_ks_small : Forall (fun k => 0 <= k < r_mod) sam_ks.
Proof. repeat (constructor; [split; [discriminate | reflexivity]|]). constructor. Qed.
Lemma sam_ordered : ordered_terms (final_terms sample_proof (sam_ix, sam_iy) (fc sh) (fc sx) (fc syy) (fc sv) (fc su)) = sam_ord.
Proof.
  rewrite sam_final. unfold ordered_terms.
  transitivity (map (fun i => (nth i sam_pts (0, 0), nth i sam_ks 0)) add_order); [|vm_compute; reflexivity].
  pose proof order_45 as O. rewrite Forall_forall in O. apply map_ext_in. intros i Hi. specialize (O i Hi). clear Hi.
  cbv zeta. rewrite combine_nth by reflexivity. cbn [fst snd]. apply pair_eq; [reflexivity|].
  change 0%fr with (fc 0). rewrite map_nth, val_phi. apply Z.mod_small.
  pose proof sam_ks_small as S. rewrite Forall_forall in S. apply S, nth_In. exact O.
Qed.
Definition sam_prods : list (Z * Z) :=
  [(6021714234428124835160193006868228083041526733155771733823920371007818661153, 16705468193953890751293775930937203541656483732525158150955028989655221096717);
   (8036214810235661575506588182916334528701044540154752118659578722318654937857, 10800397539540564003545350081823890169336941540185113247934679876353236221893);
   (19111441844415747365072220912319172128837798120530187440387468309628247807717, 1978228912172028275738163277910776173342384626499536907205399568579072868120);
   (18423019044806414466553946349413734758380755285747212198636890777500110225761, 16332320186526128638219416820300941158309493415603119049223490170857000587064);
   (12965049958490110280836658404148555154688177604887607108791137870348550535568, 5010246505471737805708910900047589489815040512896133601711282516263665796902);
   (9833842411222829275503128269113467349710382817240181520123073012582372670678, 5241518094307231262646538837022097752527761109515326735401113371376981316880);
   (15827287097124682500392663612784579488529918148868284536277013447139683457136, 98410159744267096499780977781272887442406020943034602321821516173802630751);
   (636008221626158009242945285422586273452823258298075831861006592639115970682, 15173259583139996747926968480602496796680111701621723010045060099246151107470);
   (1181318339351206453400363659215890831890633049245097651017820659928905538964, 9189874476569513426007334796942437431848490057980303389606065888730038739703);
   (5144332578637129923072894806803159956439901185693737395367165329285387915047, 10571287701743506159908573436850727290004112219089413044800178781116617868);
   (1523318088430605370611913039650483686754192201994662407471184914123876425858, 11344222416427150835172004286023770259315704648034694610096628872610800393652);
   (17499938431098152024215015644306089747108736145848826452084721532767855124548, 11107410598423948885169241758088341011099130003332763999149954349944388753537);
   (15860202616937689777775263954414784419231769712892876278577558891671919738359, 8695335611224428575412782563468257013709809087517383512838328740955078734303);
   (2463720642784120233389924092515334681953523127630543662686512516607885928050, 13171638757447503734284470617807523373050899332583773195858215057664517015940);
   (14663152490686582087635571761322538460206868781686242581159326302376321427232, 15373569431770824523737399862392816013620462990645091006965561689912806250554);
   (656676860913772744240915732377484660823128440653022165375545903034207866875, 7423890080793604836858993383867739412733300956331375809544006961199762178322);
   (4674078256792556515574350548921605516558146757529116172577475458800772163727, 16992849801348977281164921232264150836075802739755261481022431183173690361799);
   (19844265945098327368615735836705838022279495687409318103475598512420777901979, 7692581975570025821897784521117340439900700726821268034046717488927993652367);
   (2874675830853919559758196705381862711395580802249674440611556291992219751055, 15336880994976315130705047631744521126843611393885572476570208382903909581955);
   (20232342239186151633030176412210917570902003273789454863945871045270233513065, 12975238727959969544486790269499789029259109640926067918975857664860887318752);
   (17951401596044567285135540442348930239334447570562450521265924703501048481897, 8225303535120804107652488798163703276230764602873198966389738650166241741527);
   (15475143102012438307621724388955775369360532072082744718593013062512498596942, 4975270019702575261275882587803272432460957170602138286132295550124758811812);
   (9176731978734331702296102804677826709738009704383079706505336312343725900530, 9357094363217361561999280446171984018454669034742562707516047969614734747621);
   (6474336472701819020903091540686497967549887953280046717636538663071379268397, 21814851691365435257604270803340731744481503580994534933667848770651914840899);
   (16773608191221444274034723634505800152348638783233618286564858032846349483658, 5309254838970461055039540544217759521764333506680767687704942616109839409613);
   (2483563290322827829748993530589076379878652284117925371567382147536940508656, 18976366784881611494459554621181036311021187581548362972379370490286152671);
   (18808462746802402272371665247072463799405046062535571942238672225525024735596, 11764812240800107153428820943455622698493629129562579249029698174797127637104);
   (18613532608145554901682793972272719297128986696141600123899179245431146768626, 9976982378029677618902437868869898345606061451841821407356150093119235418818);
   (14813652153912351366933472419955364866902958937092768560426442958503394997763, 19493053024935938059306358218724023722495489891593476014679517259180244014392);
   (14684974680369101935515840748419834466264459139183714843446010180063461362103, 5810224404560919866641519896664382165178763883411780797775245867012534657076);
   (16548214777427315920323011004253646023997722322480188953543271660970991687236, 10465271093947340869280374762140853911428636711025827979092727929383828184140);
   (13310920041636394309848970520726351943089711554058099357520319757510271925601, 8441353963596837337877906666809255326001633591075167728673117349989664680549);
   (8015250179036368525484422033296015773348897125508048487855673170606812914540, 17274506239182865507399464576590892058811183815116107019698565511166888518145);
   (5060283967068137074711371656885410374577828596333967533360185272983576932610, 8072750483341872816750861012624923343725956549719487132442408348030308767059);
   (4810740582068373291663945563533181677457794657734168259567324794732451455034, 20270336822844354366254160223064280692024991483368694916992662817086170091806);
   (14643138247102934532830859755054718427756233401072259892675901647425725087750, 14270682380080711748110671815079945099054457270841451609103076652487060767248);
   (6393578526562504246506349781084989621104578327803512305576985190429567647519, 12553956043647881711196698206952277148998978251943707562153322060637486185954);
   (8992389430885868963463963443533833659104697746041734459818773132462601598036, 13652183954984655896421533072973027627004356191246873042327651333605758264378);
   (17330827121683339342161495890207702029183037189557675578206934919790853903261, 4051202211281350528993549597165807952592901860127280855776868849469041462163);
   (9371686176388673704221432359792971088489036879184926809215838284020228308016, 20080748587716374228242851441226706193831015720399698969402308163002191268795);
   (6362417142347377998166744144162193020847223299156007356897263857946835862525, 15569633224180931179774361467892387403246492546783360126355784286366216418802);
   (4433030303725917677480653105601698121778875626755237945099819060501464586906, 3902079438866853857742790537145349253685480486105301256021489100936699134026);
   (13651557579333589410820784915187556457084030506314386839897595886856117342817, 514089718840887298244134488668864432508631145375660296107626425598276073947);
   (20195259906226829897975280658979069039421136840250603214716116310484323057569, 16014516381563654107441779670747270168574581678793620754636570943673486273998);
   (19932755962608210911918706510331044958573938197249145570887581087663496173582, 17248428518650457179044014121086388799804431935836256828602621936308066614415);
   (5706105695585171175826559306754011113176950099798632528214389823607195514313, 13925679166843715237851202620283198528488646642078656351967542203680478650943)].
Definition sam_mul : list (positive * lpt * lpt) := Eval vm_compute in
  combine ((Z.to_pos sop, tol (1, p_mod - 2)) :: map (fun t => (Z.to_pos (snd t), tol (fst t))) sam_ord) (map tol sam_prods).
Definition sam_acc : lpt := Eval vm_compute in snd (hd (1%positive, sam_i, sam_i) sam_mul).
Definition sam_sum : list (lpt * wit) := Eval vm_compute in gsum sam_acc (map snd (tl sam_mul)).
Definition sam_res : lpt := Eval vm_compute in w_r (snd (last sam_sum (sam_acc, Build_wit [] [] [] [] [] [] sam_acc))).
Definition jprods (l : list (positive * lpt * lpt)) : bool :=
  forallb (fun '(k, P, R) => if Z.ltb (Zpos k) r_mod then jchk k P R else false) l.
Lemma jprods_ok l : jprods l = true -> forall k P R, In (k, P, R) l -> good R /\ pmul (Zpos k) (topt P) = topt R.
Proof.
  unfold jprods. rewrite forallb_forall. intros H k P R Hi. specialize (H _ Hi). cbn in H.
  destruct (Z.ltb_spec (Zpos k) r_mod); [|discriminate]. destruct (jchk_ok _ _ _ H) as [G E]. split; [exact G|].
  Transparent pmul. unfold pmul. rewrite Z.mod_small by lia. exact E.
Qed.
Local Opaque pmul.
Lemma sam_mul_ok : jprods sam_mul = true. Proof. vm_compute. reflexivity. Qed.
Lemma sam_sum_ok : schk sam_acc sam_sum = Some sam_res. Proof. vm_compute. reflexivity. Qed.
Definition jterm (m : positive * lpt * lpt) : (Z * Z) * Z := let '(k, P, _) := m in ((lval (fst P), lval (snd P)), Zpos k).
Fixpoint jsame (ms : list (positive * lpt * lpt)) (l : list (lpt * wit)) : bool :=
  match ms, l with
  | [], [] => true
  | (_, P, R) :: ms', (Q, _) :: l' =>
      if negb (zeros (snd P)) && samel (fst R) (fst Q) && samel (snd R) (snd Q) then jsame ms' l' else false
  | _, _ => false
  end.
Lemma jsame_ok ms : jprods ms = true -> forall l, jsame ms l = true ->
  Forall2 (fun t q => pmul (snd t) (of_coords0 (fst t)) = topt (fst q)) (map jterm ms) l.
Proof.
  intros H. pose proof (jprods_ok ms H) as HP. clear H. induction ms as [|[[k P] R] ms IH]; intros [|[Q w] l] E; try discriminate E; [constructor|].
  cbn [jsame] in E. destruct (negb (zeros (snd P)) && samel (fst R) (fst Q) && samel (snd R) (snd Q)) eqn:C; [|discriminate E].
  rewrite !andb_true_iff, negb_true_iff in C. destruct C as ((C1 & C2) & C3). apply samel_ok in C2, C3.
  assert (EQ : Q = R) by (destruct Q, R; cbn [fst snd] in *; congruence). subst Q.
  constructor; [|apply IH; [|exact E]; intros k' P' R' Hi; exact (HP k' P' R' (or_intror Hi))].
  cbn [jterm fst snd]. rewrite of_topt by exact (zeros_neq _ C1). exact (proj2 (HP k P R (or_introl eq_refl))).
Qed.
Lemma sam_same : jsame (tl sam_mul) sam_sum = true. Proof. vm_compute. reflexivity. Qed.
Lemma sam_term : map jterm (tl sam_mul) = sam_ord. Proof. vm_compute. reflexivity. Qed.
Lemma sam_acc_fit : fitb sam_acc = true. Proof. vm_compute. reflexivity. Qed.
Definition neg_g : lpt := Eval vm_compute in tol (1, p_mod - 2).
Lemma sam_head : nth_error sam_mul 0 = Some (Z.to_pos sop, neg_g, sam_acc). Proof. vm_compute. reflexivity. Qed.
Lemma sam_neg : topt neg_g = Aff 1 (p_mod - 2). Proof. vm_compute. reflexivity. Qed.
Lemma sam_res_val : topt sam_res = sample_R. Proof. vm_compute. reflexivity. Qed.
Lemma sam_sums : let acc := pmul sop (Aff 1 (p_mod - 2)) in
  fits acc /\ sums_fit acc sam_ord /\ msm_from acc sam_ord = sample_R.
Proof.
  pose proof (nth_error_In _ _ sam_head) as Hi.
  destruct (jprods_ok _ sam_mul_ok _ _ _ Hi) as [_ E]. rewrite sam_neg in E. cbv zeta. change sop with (Zpos (Z.to_pos sop)). rewrite E.
  destruct (fitb_ok _ sam_acc_fit) as (G & F & _). split; [exact F|].
  assert (P : jprods (tl sam_mul) = true).
  { pose proof sam_mul_ok as P. revert P. generalize sam_mul. intros [|m l] P; [exact P|].
    unfold jprods in P. cbn [forallb] in P. apply andb_true_iff in P. exact (proj2 P). }
  pose proof (jsame_ok _ P _ sam_same) as Q. rewrite sam_term in Q.
  destruct (schk_ok _ _ Q _ _ G sam_sum_ok) as [S1 S2]. rewrite sam_res_val in S2. exact (conj S1 S2).
Qed.

(** ** The accepted run *)
Lemma sam_x0 : fc sx <> 0%fr. Proof. frne. Qed.
Lemma sam_x_out : fexp (fc sx) dom_n <> 1%fr.
Proof. rewrite sam_xn. apply sub_neq. frne. Qed.
Lemma sam_u1 : fc su <> rot (fc sx) (-1). Proof. rewrite r_m1. apply sub_neq. frne. Qed.
Lemma sam_u2 : fc su <> rot (fc sx) 2. Proof. rewrite r_2. apply sub_neq. frne. Qed.
Lemma sam_valid : coms_valid sample_proof.
Proof.
  assert (F : forallb (fun i => valid_pt (Aff (nth (2 * i) sample_proof 0) (nth (2 * i + 1) sample_proof 0))) commitments = true)
    by (vm_compute; reflexivity).
  intros i Hi. exact (proj1 (forallb_forall _ _) F i Hi).
Qed.
Lemma sam_small : Forall SpecHash.small (firstn 102 sample_proof).
Proof.
  assert (F : forallb (fun z => Z.abs z <? 2 ^ 256) (firstn 102 sample_proof) = true) by (vm_compute; reflexivity).
  rewrite forallb_forall in F. apply Forall_forall. intros z Hz. apply Z.ltb_lt. exact (F z Hz).
Qed.
Lemma sam_fits : fits sample_W.
Proof. eexists. eexists. split; [reflexivity|]. split; split; discriminate || reflexivity. Qed.
Lemma sam_aux_small : forallb (fun z => (0 <=? z) && (z <? r_mod)) sample_aux = true. Proof. vm_compute. reflexivity. Qed.
Lemma sam_helpers_eq : helpers (fc sx) (fc su) (fc sh) = map fc sample_aux.
Proof.
  unfold helpers, vanish. cbv [map app prod fold_right]. cbv zeta.
  rewrite h_0, h_1, h_2, h_3, h_4, h_5, h_6, h_7, h_8, h_17, h_18, h_19, h_20, lg_0, lg_m6, lg_m5, lg_m4, lg_m3, lg_m2, lg_m1. reflexivity.
Qed.
Lemma sam_helpers i : (i < 21)%nat -> nth i sample_aux 0 = val (nth i (helpers (fc sx) (fc su) (fc sh)) 0%fr).
Proof.
  intros H. rewrite sam_helpers_eq. change 0%fr with (fc 0). rewrite map_nth, val_phi. symmetry. apply Z.mod_small.
  pose proof sam_aux_small as S. rewrite forallb_forall in S. specialize (S (nth i sample_aux 0) ltac:(apply nth_In; exact H)). lia.
Qed.
Lemma sam_val : val (fc sop) = sop. Proof. rewrite val_phi. reflexivity. Qed.

Lemma sam_run O s : real_hashes O -> degen_sane O ->
  Define O Test sample s = (emul_assert Test (o_pairing O [(sample_W, g20_const); (sample_R, g21_const)]) ;;; ret None) s.
Proof.
  intros [HS HK] HD. destruct sam_sums as (S1 & S2 & S3).
  pose proof (tv_ext O sam_O sam_ix sam_iy sample_proof HS) as TV. rewrite sam_transcript in TV.
  pose proof (c48_gen O sample sam_zs sample_proof sample_aux s sam_ix sam_iy 7162082828732168937516361335135022403650719329242056518668518043784043198510 18768486256042060147567165227366772940689098806912976766549486364846889365307) as K.
  cbv zeta in K. rewrite TV in K.
  rewrite c_th, c_be, c_ga, c_y, c_x, c_yy, c_v, c_u in K.
  rewrite sam_quotient in K.
  rewrite sam_opening in K.
  rewrite sam_ordered, sam_val in K.
  apply K; clear K.
  - reflexivity.
  - reflexivity.
  - reflexivity.
  - cbn. lia.
  - vm_compute. lia.
  - cbn. lia.
  - exact HD.
  - exact sam_valid.
  - exact sam_small.
  - rewrite HK, sam_keccak. exact sam_ic.
  - reflexivity.
  - reflexivity.
  - exact sam_x0.
  - exact sam_x_out.
  - exact sam_u1.
  - exact sam_u2.
  - exact sam_helpers.
  - exact sam_fits.
  - exact S1.
  - exact S2.
  - exact S3.
  - discriminate.
  - discriminate.
  - discriminate.
  - discriminate.
Qed.
Lemma c60 O s : real_hashes O -> degen_sane O ->
  (Define O Test sample s = Done (None, s) <-> o_pairing O [(sample_W, g20_const); (sample_R, g21_const)] = true).
Proof.
  intros HR HD. rewrite (sam_run O s HR HD).
  destruct (o_pairing O [(sample_W, g20_const); (sample_R, g21_const)]).
  - split; reflexivity.
  - split; intros H; discriminate H.
Qed.
Lemma sam_O_real : real_hashes sam_O. Proof. split; reflexivity. Qed.
Lemma sam_O_sane : degen_sane sam_O. Proof. intros x y k E. discriminate E. Qed.
Lemma sam_case : real_hashes sam_O /\ degen_sane sam_O /\ forall s, Define sam_O Test sample s = Done (None, s).
Proof.
  split; [exact sam_O_real|]. split; [exact sam_O_sane|]. intros s. apply (c60 sam_O s sam_O_real sam_O_sane). reflexivity.
Qed.
Lemma sha_abc : sha256 [97; 98; 99] = 0xba7816bf8f01cfea414140de5dae2223b00361a396177a9cb410ff61f20015ad. Proof. vm_compute. reflexivity. Qed.
Lemma keccak_abc : keccak256 [97; 98; 99] = 0x4e03657aea45a94fc7d47ba826c8d667c0d1e6e33a64a036ec44f58fa12d6c45. Proof. vm_compute. reflexivity. Qed.
