(** Certificates for the precomputed table of /repo/sm2_std.go:132-193, generated by
    tools/sm2table.py: entry i of half h is the multiple of the base point by
    2^(32 h) (b0 + 2^64 b1 + 2^128 b2 + 2^192 b3), the b being the bits of i. *)
From Coq Require Import ZArith List Lia Znumtheory Ring Field Bool.
From Verif Require Import Base Fp Weier Jac Group EC Mont63 Primes Curves ModelECDSA ProofECDSA
  ModelSM2F ProofSM2M ModelSM2P ProofSM2P.
Import ListNotations.
Open Scope Z_scope.

Local Notation G := (w_G sm2p256).
Local Notation mulG k := (w_mul sm2p256 k G).

(** (x3, y3) is the sum of (x1, y1) and (x2, y2), l being the slope. *)
Definition add_check (p x1 y1 x2 y2 l x3 y3 : Z) : bool :=
  ((l * (x2 - x1)) mod p =? (y2 - y1) mod p) && negb ((x2 - x1) mod p =? 0)
  && ((l * l - x1 - x2) mod p =? x3 mod p) && ((l * (x1 - x3) - y1) mod p =? y3 mod p).

Section AddCheck.
Variable c : wcurve.
Hypothesis Hf : w_field_ok c.
Lemma Kf5 : field_theory (fp_of (w_p c) 0) (fp_of (w_p c) 1) fp_add fp_mul fp_sub fp_opp fp_div fp_inv eq.
Proof. exact (fp_field _ (wv_prime c Hf)). Qed.
Add Field KFT : Kf5.
Lemma add_check_ok x1 y1 x2 y2 l x3 y3 :
  add_check (w_p c) x1 y1 x2 y2 l x3 y3 = true ->
  w_add c (paff c x1 y1) (paff c x2 y2) = paff c x3 y3.
Proof.
  intros H. unfold add_check in H. rewrite !andb_true_iff in H.
  destruct H as [[[H1 H2] H3] H4].
  apply Z.eqb_eq in H1, H3, H4. apply negb_true_iff, Z.eqb_neq in H2.
  apply fp_of_eq in H1, H3, H4. rewrite !fp_of_sub, !fp_of_mul, ?fp_of_sub in *.
  assert (Nx : fp_sub (fp_of (w_p c) x2) (fp_of (w_p c) x1) <> fp_of (w_p c) 0).
  { rewrite <- fp_of_sub. intros E. apply H2. apply fp_of_0 in E. exact E. }
  unfold w_add, paff. cbn [padd].
  destruct (fp_dec (fp_of (w_p c) x1) (fp_of (w_p c) x2)) as [E|_].
  { exfalso. apply Nx. rewrite E. ring. }
  cbv zeta.
  assert (El : fp_div (fp_sub (fp_of (w_p c) y2) (fp_of (w_p c) y1))
                 (fp_sub (fp_of (w_p c) x2) (fp_of (w_p c) x1)) = fp_of (w_p c) l).
  { rewrite <- H1. field. exact Nx. }
  rewrite El, H3, H4. reflexivity.
Qed.
End AddCheck.

Lemma sum_ok j k m x1 y1 x2 y2 l x3 y3 : j + k = m ->
  mulG j = paff sm2p256 x1 y1 -> mulG k = paff sm2p256 x2 y2 ->
  add_check (w_p sm2p256) x1 y1 x2 y2 l x3 y3 = true -> mulG m = paff sm2p256 x3 y3.
Proof.
  intros <- H1 H2 H3. rewrite <- (mulG_add sm2p256 sm2p256_valid). rewrite H1, H2.
  exact (add_check_ok sm2p256 (wv_field _ sm2p256_valid) _ _ _ _ l _ _ H3).
Qed.

Lemma t0_1 : mulG 1 =
  paff sm2p256 22963146547237050559479531362550074578802567295341616970375194840604139615431
    85132369209828568825618990617112496413088388631904505083283536607588877201568.
Proof. exact (zmul_1 _ _ _ _ _ (w_group _ (wv_field _ sm2p256_valid)) G (wv_Gon _ sm2p256_valid)). Qed.
Lemma t0_2 : mulG 18446744073709551616 =
  paff sm2p256 67705117572652837114471349525499634045614794997337890197046851983230464312599
    105231369456097397661386898492232980821817614166177179504943077059142844337611.
Proof. apply (mul_check_ok ctx_sm2p sm2p256); [exact prime_sm2p|]. vm_compute. reflexivity. Qed.
Lemma t0_3 : mulG 18446744073709551617 =
  paff sm2p256 59085058512652262766744473634923081986036205385486894268141155278033732483669
    109091573048984472073089738700806795212297391679525613544153843136436839439305.
Proof.
  apply (sum_ok _ _ _ _ _ _ _ 67310863157321546354995585565978445354879534344285102254621246102114430433297 _ _ eq_refl t0_1 t0_2).
  vm_compute. reflexivity.
Qed.
Lemma t0_4 : mulG 340282366920938463463374607431768211456 =
  paff sm2p256 82580483505579888048248891498041876314786199024995590273835293449129297593069
    73029124966741147116568609485132862990712545849247788159814994149391419696555.
Proof. apply (mul_check_ok ctx_sm2p sm2p256); [exact prime_sm2p|]. vm_compute. reflexivity. Qed.
Lemma t0_5 : mulG 340282366920938463463374607431768211457 =
  paff sm2p256 86848041686756723114584433308299608942636941729527524331542225209405118928267
    54921675316658680818388274484536285985620228771232775428701918326977374721529.
Proof.
  apply (sum_ok _ _ _ _ _ _ _ 47967299119376479778982006822902658241961944654662131730427710949955686205880 _ _ eq_refl t0_1 t0_4).
  vm_compute. reflexivity.
Qed.
Lemma t0_6 : mulG 340282366920938463481821351505477763072 =
  paff sm2p256 53209117963129755799540629530870949355596187090964143013579869346335355383829
    45310597926631255378856870098738145979682050257252233157641454365038168970041.
Proof.
  apply (sum_ok _ _ _ _ _ _ _ 74816026267614263420151107918108116063944160029839917312331370011995839846674 _ _ eq_refl t0_2 t0_4).
  vm_compute. reflexivity.
Qed.
Lemma t0_7 : mulG 340282366920938463481821351505477763073 =
  paff sm2p256 98567493925580762823069255045984118054797882661099345921668929848869459512328
    110336070580595011796555767631269242586466863542034033617751385756889574188365.
Proof.
  apply (sum_ok _ _ _ _ _ _ _ 106621354436556579919310488915167886371525559260992353528720340896092512452881 _ _ eq_refl t0_3 t0_4).
  vm_compute. reflexivity.
Qed.
Lemma t0_8 : mulG 6277101735386680763835789423207666416102355444464034512896 =
  paff sm2p256 54842370261918212924648761054027838747829661419062947173569851166254391481878
    101426701570716438575530100482748050191536102803600044520927466495781527040827.
Proof. apply (mul_check_ok ctx_sm2p sm2p256); [exact prime_sm2p|]. vm_compute. reflexivity. Qed.
Lemma t0_9 : mulG 6277101735386680763835789423207666416102355444464034512897 =
  paff sm2p256 12269061587400982443539020516506469528566294741841090734900028672205580665746
    16529702793016095588534532837075850571549425155399206504289122598772051188685.
Proof.
  apply (sum_ok _ _ _ _ _ _ _ 107572379672794944735535684280275452446458240697520873163354495976157766043920 _ _ eq_refl t0_1 t0_8).
  vm_compute. reflexivity.
Qed.
Lemma t0_10 : mulG 6277101735386680763835789423207666416120802188537744064512 =
  paff sm2p256 64434573173236480969138577404833282673523627011536882749755581097703792374498
    38739535235004306990435750688164009769761761056360970669716744546640331203293.
Proof.
  apply (sum_ok _ _ _ _ _ _ _ 11352110686094665930530684412304193319913936019689266148456797084135897075759 _ _ eq_refl t0_2 t0_8).
  vm_compute. reflexivity.
Qed.
Lemma t0_11 : mulG 6277101735386680763835789423207666416120802188537744064513 =
  paff sm2p256 34527691700877729035117129267209078061476481175212747565893731231603176390121
    4057743830030335104756212222018194631112125931021813403712247080186416358025.
Proof.
  apply (sum_ok _ _ _ _ _ _ _ 96274728302025628169785669917952680695856327292269100948113843997630184830114 _ _ eq_refl t0_3 t0_8).
  vm_compute. reflexivity.
Qed.
Lemma t0_12 : mulG 6277101735386680764176071790128604879565730051895802724352 =
  paff sm2p256 113019814001216926601167366326200148303289071208068658154223316262167530671662
    65771162203637495562352007069135952168431207244049062569251477870437195461279.
Proof.
  apply (sum_ok _ _ _ _ _ _ _ 105849011648850012350338694481220846679295599624168003983036168581393998662343 _ _ eq_refl t0_4 t0_8).
  vm_compute. reflexivity.
Qed.
Lemma t0_13 : mulG 6277101735386680764176071790128604879565730051895802724353 =
  paff sm2p256 98806970682279766809788238647846303670311504174553780897122205688916923498009
    80258702523420980907564925663081481092346280892548128526246151985709225657322.
Proof.
  apply (sum_ok _ _ _ _ _ _ _ 22318308072636722880217735740045780948998851557216778759074421289197620421516 _ _ eq_refl t0_5 t0_8).
  vm_compute. reflexivity.
Qed.
Lemma t0_14 : mulG 6277101735386680764176071790128604879584176795969512275968 =
  paff sm2p256 75015959162397789281735403142210955999780934098796070639937316793192444562854
    102622446084784894172630081175370402215434615166783993228004681223075583073513.
Proof.
  apply (sum_ok _ _ _ _ _ _ _ 52399312399019416707007852647956407276374134624205202067163424910379892514481 _ _ eq_refl t0_6 t0_8).
  vm_compute. reflexivity.
Qed.
Lemma t0_15 : mulG 6277101735386680764176071790128604879584176795969512275969 =
  paff sm2p256 98290966315732394635804879472297552049863842953830735255423745352015426579195
    86045662416818120197860942815200917482442774209509364262885407182405740581028.
Proof.
  apply (sum_ok _ _ _ _ _ _ _ 65578397427660736196477001893541848078303101282317406264379766207939406017913 _ _ eq_refl t0_7 t0_8).
  vm_compute. reflexivity.
Qed.
Lemma t1_1 : mulG 4294967296 =
  paff sm2p256 27656645740463688420011061666403150467724038752015205298141582508658173133289
    61304494158713143023459198820689120461809067114069644647956890469746089234482.
Proof. apply (mul_check_ok ctx_sm2p sm2p256); [exact prime_sm2p|]. vm_compute. reflexivity. Qed.
Lemma t1_2 : mulG 79228162514264337593543950336 =
  paff sm2p256 108139344675098469275811847961873270439384029870138508931592770477395992987795
    91247607565653826025006790553252720052512946813134830989326271521410331996106.
Proof. apply (mul_check_ok ctx_sm2p sm2p256); [exact prime_sm2p|]. vm_compute. reflexivity. Qed.
Lemma t1_3 : mulG 79228162514264337597838917632 =
  paff sm2p256 85359681153702576556883230634214742275789753451618925904919914550988377036333
    66873501300530853990980802553524376253118396437397699315984027838391462443243.
Proof.
  apply (sum_ok _ _ _ _ _ _ _ 55044579204719825675644524578290892758072702750135958375306386440454945479504 _ _ eq_refl t1_1 t1_2).
  vm_compute. reflexivity.
Qed.
Lemma t1_4 : mulG 1461501637330902918203684832716283019655932542976 =
  paff sm2p256 106457195765868536364301857874523844785410252372179228253876364442002381813742
    107558665886644582134143013748434047802917171807264665288908076345410766984360.
Proof. apply (mul_check_ok ctx_sm2p sm2p256); [exact prime_sm2p|]. vm_compute. reflexivity. Qed.
Lemma t1_5 : mulG 1461501637330902918203684832716283019660227510272 =
  paff sm2p256 11995388783463527963161320235598011443133654281944223275845079091542421530356
    45091550567191095463633359227681865179223863396298882402218668148298619203168.
Proof.
  apply (sum_ok _ _ _ _ _ _ _ 6008126621949597122936946327145961643370027971432737163686687503221293098995 _ _ eq_refl t1_1 t1_4).
  vm_compute. reflexivity.
Qed.
Lemma t1_6 : mulG 1461501637330902918282912995230547357249476493312 =
  paff sm2p256 65680916170291054634978247076940207069084334509599166206181389158183842445169
    93601325927595405085934542000529005602143735667699607636748977760611906258815.
Proof.
  apply (sum_ok _ _ _ _ _ _ _ 108328065211867650014590226211288351903456093221620569964044996799674036260561 _ _ eq_refl t1_2 t1_4).
  vm_compute. reflexivity.
Qed.
Lemma t1_7 : mulG 1461501637330902918282912995230547357253771460608 =
  paff sm2p256 101589270325472078746176225938550908594042745532146702365107714989046225324559
    113684684209056633113510565116378904222453305320567142458414464003889688617411.
Proof.
  apply (sum_ok _ _ _ _ _ _ _ 31404344999194949266285871239398139224258886182487217753130321343690125259668 _ _ eq_refl t1_3 t1_4).
  vm_compute. reflexivity.
Qed.
Lemma t1_8 : mulG 26959946667150639794667015087019630673637144422540572481103610249216 =
  paff sm2p256 36796040157371402779777568491897504700018912309863314106301510062917872921119
    33802998356492310275031089417234972039148157891410161300315932567884179249254.
Proof. apply (mul_check_ok ctx_sm2p sm2p256); [exact prime_sm2p|]. vm_compute. reflexivity. Qed.
Lemma t1_9 : mulG 26959946667150639794667015087019630673637144422540572481107905216512 =
  paff sm2p256 66488641277053852730302653660870225029881480477562028952882483979720874598220
    99743473681205441932168817033637494197049301615605530110432679356592041584126.
Proof.
  apply (sum_ok _ _ _ _ _ _ _ 61323745748174777174938367900166541122772796075981027164071342221322776830258 _ _ eq_refl t1_1 t1_8).
  vm_compute. reflexivity.
Qed.
Lemma t1_10 : mulG 26959946667150639794667015087019630673716372585054836818697154199552 =
  paff sm2p256 70864763812423826357624068784164251476901347076767930905614106456205281982106
    73541401817033626647357686253595872603029551111349278805929932338267627495469.
Proof.
  apply (sum_ok _ _ _ _ _ _ _ 25693212292908579018657285244417704012731022142919994964107487596061960148872 _ _ eq_refl t1_2 t1_8).
  vm_compute. reflexivity.
Qed.
Lemma t1_11 : mulG 26959946667150639794667015087019630673716372585054836818701449166848 =
  paff sm2p256 97051910126062360804685778785862815989968717704058425286926543016103008215504
    78980949781813977431531298580258272721702876234975805785157623012510397909518.
Proof.
  apply (sum_ok _ _ _ _ _ _ _ 115689592216843477826795030969732717927199986901400933135142927097333442272353 _ _ eq_refl t1_3 t1_8).
  vm_compute. reflexivity.
Qed.
Lemma t1_12 : mulG 26959946667150639796128516724350533591840829255256855500759542792192 =
  paff sm2p256 58116726195830150431978735967973133414545434092024546936076840239708566145733
    79590880309700856083792654844611904801820246021494422125788789091600826507188.
Proof.
  apply (sum_ok _ _ _ _ _ _ _ 67512092295508455678629879377462304924566538306207944533446041108117881817043 _ _ eq_refl t1_4 t1_8).
  vm_compute. reflexivity.
Qed.
Lemma t1_13 : mulG 26959946667150639796128516724350533591840829255256855500763837759488 =
  paff sm2p256 113507193978715085869764764456228544548713455748597849005156375003692341976321
    7995840820734240198944361443325383476316681539831095849598291951368115094190.
Proof.
  apply (sum_ok _ _ _ _ _ _ _ 61664532839169035451442040947234996676545627458477638061852662156992176546783 _ _ eq_refl t1_5 t1_8).
  vm_compute. reflexivity.
Qed.
Lemma t1_14 : mulG 26959946667150639796128516724350533591920057417771119838353086742528 =
  paff sm2p256 103747715251198567781280760790998494461126321874995293887400558681164610724761
    47261842213255175620960057316697558921664252110384882339850628875527359721111.
Proof.
  apply (sum_ok _ _ _ _ _ _ _ 26545386494706533817296321137701288808935332493066313420616473631216482134903 _ _ eq_refl t1_6 t1_8).
  vm_compute. reflexivity.
Qed.
Lemma t1_15 : mulG 26959946667150639796128516724350533591920057417771119838357381709824 =
  paff sm2p256 64715719199968089545068383275043113115131965984698509435186423212657452236699
    37861092312862231610700917336955293410732275606119045543189054690171468843413.
Proof.
  apply (sum_ok _ _ _ _ _ _ _ 82249504080947915975961888207623093737942383368579328630304173340125357178350 _ _ eq_refl t1_7 t1_8).
  vm_compute. reflexivity.
Qed.

Definition tab_scalar (half : nat) (i : Z) : Z :=
  2 ^ (32 * Z.of_nat half) * (i mod 2 + 2 ^ 64 * (i / 2 mod 2) + 2 ^ 128 * (i / 4 mod 2) + 2 ^ 192 * (i / 8 mod 2)).
Definition row_is (row : fe * fe) (x y : Z) : bool :=
  (fe_okb (fst row) && (sm2_to_big (fst row) =? x)) && (fe_okb (snd row) && (sm2_to_big (snd row) =? y)).

Definition coords0 : list (Z * Z) :=
  [(22963146547237050559479531362550074578802567295341616970375194840604139615431,
    85132369209828568825618990617112496413088388631904505083283536607588877201568);
   (67705117572652837114471349525499634045614794997337890197046851983230464312599,
    105231369456097397661386898492232980821817614166177179504943077059142844337611);
   (59085058512652262766744473634923081986036205385486894268141155278033732483669,
    109091573048984472073089738700806795212297391679525613544153843136436839439305);
   (82580483505579888048248891498041876314786199024995590273835293449129297593069,
    73029124966741147116568609485132862990712545849247788159814994149391419696555);
   (86848041686756723114584433308299608942636941729527524331542225209405118928267,
    54921675316658680818388274484536285985620228771232775428701918326977374721529);
   (53209117963129755799540629530870949355596187090964143013579869346335355383829,
    45310597926631255378856870098738145979682050257252233157641454365038168970041);
   (98567493925580762823069255045984118054797882661099345921668929848869459512328,
    110336070580595011796555767631269242586466863542034033617751385756889574188365);
   (54842370261918212924648761054027838747829661419062947173569851166254391481878,
    101426701570716438575530100482748050191536102803600044520927466495781527040827);
   (12269061587400982443539020516506469528566294741841090734900028672205580665746,
    16529702793016095588534532837075850571549425155399206504289122598772051188685);
   (64434573173236480969138577404833282673523627011536882749755581097703792374498,
    38739535235004306990435750688164009769761761056360970669716744546640331203293);
   (34527691700877729035117129267209078061476481175212747565893731231603176390121,
    4057743830030335104756212222018194631112125931021813403712247080186416358025);
   (113019814001216926601167366326200148303289071208068658154223316262167530671662,
    65771162203637495562352007069135952168431207244049062569251477870437195461279);
   (98806970682279766809788238647846303670311504174553780897122205688916923498009,
    80258702523420980907564925663081481092346280892548128526246151985709225657322);
   (75015959162397789281735403142210955999780934098796070639937316793192444562854,
    102622446084784894172630081175370402215434615166783993228004681223075583073513);
   (98290966315732394635804879472297552049863842953830735255423745352015426579195,
    86045662416818120197860942815200917482442774209509364262885407182405740581028)].
Lemma rows0 : forallb (fun t => row_is (fst t) (fst (snd t)) (snd (snd t))) (combine (sm2_table 0) coords0) = true.
Proof. vm_compute. reflexivity. Qed.
Lemma tab0 i : 1 <= i <= 15 ->
  exists x y, row_is (nth (Z.to_nat i - 1) (sm2_table 0) (fe_zero, fe_zero)) x y = true /\
    mulG (tab_scalar 0 i) = paff sm2p256 x y.
Proof.
  intros Hi.
  assert (S : forall j, (j < 15)%nat -> row_is (nth j (sm2_table 0) (fe_zero, fe_zero))
    (fst (nth j coords0 (0, 0))) (snd (nth j coords0 (0, 0))) = true).
  { intros j Hj. pose proof rows0 as R. rewrite forallb_forall in R.
    specialize (R (nth j (combine (sm2_table 0) coords0) (fe_zero, fe_zero, (0, 0)))).
    rewrite combine_nth in R by reflexivity. apply R. rewrite <- combine_nth by reflexivity.
    apply nth_In. exact Hj. }
  assert (C : i = 1 \/ i = 2 \/ i = 3 \/ i = 4 \/ i = 5 \/ i = 6 \/ i = 7 \/ i = 8 \/ i = 9 \/ i = 10 \/ i = 11 \/ i = 12 \/ i = 13 \/ i = 14 \/ i = 15) by lia.
  clear Hi. destruct C as [-> | [-> | [-> | [-> | [-> | [-> | [-> | [-> | [-> | [-> | [-> | [-> | [-> | [-> | ->]]]]]]]]]]]]]].
  - exists 22963146547237050559479531362550074578802567295341616970375194840604139615431, 85132369209828568825618990617112496413088388631904505083283536607588877201568. split; [exact (S 0%nat ltac:(lia))|].
    replace (tab_scalar 0 1) with 1 by (vm_compute; reflexivity). exact t0_1.
  - exists 67705117572652837114471349525499634045614794997337890197046851983230464312599, 105231369456097397661386898492232980821817614166177179504943077059142844337611. split; [exact (S 1%nat ltac:(lia))|].
    replace (tab_scalar 0 2) with 18446744073709551616 by (vm_compute; reflexivity). exact t0_2.
  - exists 59085058512652262766744473634923081986036205385486894268141155278033732483669, 109091573048984472073089738700806795212297391679525613544153843136436839439305. split; [exact (S 2%nat ltac:(lia))|].
    replace (tab_scalar 0 3) with 18446744073709551617 by (vm_compute; reflexivity). exact t0_3.
  - exists 82580483505579888048248891498041876314786199024995590273835293449129297593069, 73029124966741147116568609485132862990712545849247788159814994149391419696555. split; [exact (S 3%nat ltac:(lia))|].
    replace (tab_scalar 0 4) with 340282366920938463463374607431768211456 by (vm_compute; reflexivity). exact t0_4.
  - exists 86848041686756723114584433308299608942636941729527524331542225209405118928267, 54921675316658680818388274484536285985620228771232775428701918326977374721529. split; [exact (S 4%nat ltac:(lia))|].
    replace (tab_scalar 0 5) with 340282366920938463463374607431768211457 by (vm_compute; reflexivity). exact t0_5.
  - exists 53209117963129755799540629530870949355596187090964143013579869346335355383829, 45310597926631255378856870098738145979682050257252233157641454365038168970041. split; [exact (S 5%nat ltac:(lia))|].
    replace (tab_scalar 0 6) with 340282366920938463481821351505477763072 by (vm_compute; reflexivity). exact t0_6.
  - exists 98567493925580762823069255045984118054797882661099345921668929848869459512328, 110336070580595011796555767631269242586466863542034033617751385756889574188365. split; [exact (S 6%nat ltac:(lia))|].
    replace (tab_scalar 0 7) with 340282366920938463481821351505477763073 by (vm_compute; reflexivity). exact t0_7.
  - exists 54842370261918212924648761054027838747829661419062947173569851166254391481878, 101426701570716438575530100482748050191536102803600044520927466495781527040827. split; [exact (S 7%nat ltac:(lia))|].
    replace (tab_scalar 0 8) with 6277101735386680763835789423207666416102355444464034512896 by (vm_compute; reflexivity). exact t0_8.
  - exists 12269061587400982443539020516506469528566294741841090734900028672205580665746, 16529702793016095588534532837075850571549425155399206504289122598772051188685. split; [exact (S 8%nat ltac:(lia))|].
    replace (tab_scalar 0 9) with 6277101735386680763835789423207666416102355444464034512897 by (vm_compute; reflexivity). exact t0_9.
  - exists 64434573173236480969138577404833282673523627011536882749755581097703792374498, 38739535235004306990435750688164009769761761056360970669716744546640331203293. split; [exact (S 9%nat ltac:(lia))|].
    replace (tab_scalar 0 10) with 6277101735386680763835789423207666416120802188537744064512 by (vm_compute; reflexivity). exact t0_10.
  - exists 34527691700877729035117129267209078061476481175212747565893731231603176390121, 4057743830030335104756212222018194631112125931021813403712247080186416358025. split; [exact (S 10%nat ltac:(lia))|].
    replace (tab_scalar 0 11) with 6277101735386680763835789423207666416120802188537744064513 by (vm_compute; reflexivity). exact t0_11.
  - exists 113019814001216926601167366326200148303289071208068658154223316262167530671662, 65771162203637495562352007069135952168431207244049062569251477870437195461279. split; [exact (S 11%nat ltac:(lia))|].
    replace (tab_scalar 0 12) with 6277101735386680764176071790128604879565730051895802724352 by (vm_compute; reflexivity). exact t0_12.
  - exists 98806970682279766809788238647846303670311504174553780897122205688916923498009, 80258702523420980907564925663081481092346280892548128526246151985709225657322. split; [exact (S 12%nat ltac:(lia))|].
    replace (tab_scalar 0 13) with 6277101735386680764176071790128604879565730051895802724353 by (vm_compute; reflexivity). exact t0_13.
  - exists 75015959162397789281735403142210955999780934098796070639937316793192444562854, 102622446084784894172630081175370402215434615166783993228004681223075583073513. split; [exact (S 13%nat ltac:(lia))|].
    replace (tab_scalar 0 14) with 6277101735386680764176071790128604879584176795969512275968 by (vm_compute; reflexivity). exact t0_14.
  - exists 98290966315732394635804879472297552049863842953830735255423745352015426579195, 86045662416818120197860942815200917482442774209509364262885407182405740581028. split; [exact (S 14%nat ltac:(lia))|].
    replace (tab_scalar 0 15) with 6277101735386680764176071790128604879584176795969512275969 by (vm_compute; reflexivity). exact t0_15.
Qed.
Definition coords1 : list (Z * Z) :=
  [(27656645740463688420011061666403150467724038752015205298141582508658173133289,
    61304494158713143023459198820689120461809067114069644647956890469746089234482);
   (108139344675098469275811847961873270439384029870138508931592770477395992987795,
    91247607565653826025006790553252720052512946813134830989326271521410331996106);
   (85359681153702576556883230634214742275789753451618925904919914550988377036333,
    66873501300530853990980802553524376253118396437397699315984027838391462443243);
   (106457195765868536364301857874523844785410252372179228253876364442002381813742,
    107558665886644582134143013748434047802917171807264665288908076345410766984360);
   (11995388783463527963161320235598011443133654281944223275845079091542421530356,
    45091550567191095463633359227681865179223863396298882402218668148298619203168);
   (65680916170291054634978247076940207069084334509599166206181389158183842445169,
    93601325927595405085934542000529005602143735667699607636748977760611906258815);
   (101589270325472078746176225938550908594042745532146702365107714989046225324559,
    113684684209056633113510565116378904222453305320567142458414464003889688617411);
   (36796040157371402779777568491897504700018912309863314106301510062917872921119,
    33802998356492310275031089417234972039148157891410161300315932567884179249254);
   (66488641277053852730302653660870225029881480477562028952882483979720874598220,
    99743473681205441932168817033637494197049301615605530110432679356592041584126);
   (70864763812423826357624068784164251476901347076767930905614106456205281982106,
    73541401817033626647357686253595872603029551111349278805929932338267627495469);
   (97051910126062360804685778785862815989968717704058425286926543016103008215504,
    78980949781813977431531298580258272721702876234975805785157623012510397909518);
   (58116726195830150431978735967973133414545434092024546936076840239708566145733,
    79590880309700856083792654844611904801820246021494422125788789091600826507188);
   (113507193978715085869764764456228544548713455748597849005156375003692341976321,
    7995840820734240198944361443325383476316681539831095849598291951368115094190);
   (103747715251198567781280760790998494461126321874995293887400558681164610724761,
    47261842213255175620960057316697558921664252110384882339850628875527359721111);
   (64715719199968089545068383275043113115131965984698509435186423212657452236699,
    37861092312862231610700917336955293410732275606119045543189054690171468843413)].
Lemma rows1 : forallb (fun t => row_is (fst t) (fst (snd t)) (snd (snd t))) (combine (sm2_table 1) coords1) = true.
Proof. vm_compute. reflexivity. Qed.
Lemma tab1 i : 1 <= i <= 15 ->
  exists x y, row_is (nth (Z.to_nat i - 1) (sm2_table 1) (fe_zero, fe_zero)) x y = true /\
    mulG (tab_scalar 1 i) = paff sm2p256 x y.
Proof.
  intros Hi.
  assert (S : forall j, (j < 15)%nat -> row_is (nth j (sm2_table 1) (fe_zero, fe_zero))
    (fst (nth j coords1 (0, 0))) (snd (nth j coords1 (0, 0))) = true).
  { intros j Hj. pose proof rows1 as R. rewrite forallb_forall in R.
    specialize (R (nth j (combine (sm2_table 1) coords1) (fe_zero, fe_zero, (0, 0)))).
    rewrite combine_nth in R by reflexivity. apply R. rewrite <- combine_nth by reflexivity.
    apply nth_In. exact Hj. }
  assert (C : i = 1 \/ i = 2 \/ i = 3 \/ i = 4 \/ i = 5 \/ i = 6 \/ i = 7 \/ i = 8 \/ i = 9 \/ i = 10 \/ i = 11 \/ i = 12 \/ i = 13 \/ i = 14 \/ i = 15) by lia.
  clear Hi. destruct C as [-> | [-> | [-> | [-> | [-> | [-> | [-> | [-> | [-> | [-> | [-> | [-> | [-> | [-> | ->]]]]]]]]]]]]]].
  - exists 27656645740463688420011061666403150467724038752015205298141582508658173133289, 61304494158713143023459198820689120461809067114069644647956890469746089234482. split; [exact (S 0%nat ltac:(lia))|].
    replace (tab_scalar 1 1) with 4294967296 by (vm_compute; reflexivity). exact t1_1.
  - exists 108139344675098469275811847961873270439384029870138508931592770477395992987795, 91247607565653826025006790553252720052512946813134830989326271521410331996106. split; [exact (S 1%nat ltac:(lia))|].
    replace (tab_scalar 1 2) with 79228162514264337593543950336 by (vm_compute; reflexivity). exact t1_2.
  - exists 85359681153702576556883230634214742275789753451618925904919914550988377036333, 66873501300530853990980802553524376253118396437397699315984027838391462443243. split; [exact (S 2%nat ltac:(lia))|].
    replace (tab_scalar 1 3) with 79228162514264337597838917632 by (vm_compute; reflexivity). exact t1_3.
  - exists 106457195765868536364301857874523844785410252372179228253876364442002381813742, 107558665886644582134143013748434047802917171807264665288908076345410766984360. split; [exact (S 3%nat ltac:(lia))|].
    replace (tab_scalar 1 4) with 1461501637330902918203684832716283019655932542976 by (vm_compute; reflexivity). exact t1_4.
  - exists 11995388783463527963161320235598011443133654281944223275845079091542421530356, 45091550567191095463633359227681865179223863396298882402218668148298619203168. split; [exact (S 4%nat ltac:(lia))|].
    replace (tab_scalar 1 5) with 1461501637330902918203684832716283019660227510272 by (vm_compute; reflexivity). exact t1_5.
  - exists 65680916170291054634978247076940207069084334509599166206181389158183842445169, 93601325927595405085934542000529005602143735667699607636748977760611906258815. split; [exact (S 5%nat ltac:(lia))|].
    replace (tab_scalar 1 6) with 1461501637330902918282912995230547357249476493312 by (vm_compute; reflexivity). exact t1_6.
  - exists 101589270325472078746176225938550908594042745532146702365107714989046225324559, 113684684209056633113510565116378904222453305320567142458414464003889688617411. split; [exact (S 6%nat ltac:(lia))|].
    replace (tab_scalar 1 7) with 1461501637330902918282912995230547357253771460608 by (vm_compute; reflexivity). exact t1_7.
  - exists 36796040157371402779777568491897504700018912309863314106301510062917872921119, 33802998356492310275031089417234972039148157891410161300315932567884179249254. split; [exact (S 7%nat ltac:(lia))|].
    replace (tab_scalar 1 8) with 26959946667150639794667015087019630673637144422540572481103610249216 by (vm_compute; reflexivity). exact t1_8.
  - exists 66488641277053852730302653660870225029881480477562028952882483979720874598220, 99743473681205441932168817033637494197049301615605530110432679356592041584126. split; [exact (S 8%nat ltac:(lia))|].
    replace (tab_scalar 1 9) with 26959946667150639794667015087019630673637144422540572481107905216512 by (vm_compute; reflexivity). exact t1_9.
  - exists 70864763812423826357624068784164251476901347076767930905614106456205281982106, 73541401817033626647357686253595872603029551111349278805929932338267627495469. split; [exact (S 9%nat ltac:(lia))|].
    replace (tab_scalar 1 10) with 26959946667150639794667015087019630673716372585054836818697154199552 by (vm_compute; reflexivity). exact t1_10.
  - exists 97051910126062360804685778785862815989968717704058425286926543016103008215504, 78980949781813977431531298580258272721702876234975805785157623012510397909518. split; [exact (S 10%nat ltac:(lia))|].
    replace (tab_scalar 1 11) with 26959946667150639794667015087019630673716372585054836818701449166848 by (vm_compute; reflexivity). exact t1_11.
  - exists 58116726195830150431978735967973133414545434092024546936076840239708566145733, 79590880309700856083792654844611904801820246021494422125788789091600826507188. split; [exact (S 11%nat ltac:(lia))|].
    replace (tab_scalar 1 12) with 26959946667150639796128516724350533591840829255256855500759542792192 by (vm_compute; reflexivity). exact t1_12.
  - exists 113507193978715085869764764456228544548713455748597849005156375003692341976321, 7995840820734240198944361443325383476316681539831095849598291951368115094190. split; [exact (S 12%nat ltac:(lia))|].
    replace (tab_scalar 1 13) with 26959946667150639796128516724350533591840829255256855500763837759488 by (vm_compute; reflexivity). exact t1_13.
  - exists 103747715251198567781280760790998494461126321874995293887400558681164610724761, 47261842213255175620960057316697558921664252110384882339850628875527359721111. split; [exact (S 13%nat ltac:(lia))|].
    replace (tab_scalar 1 14) with 26959946667150639796128516724350533591920057417771119838353086742528 by (vm_compute; reflexivity). exact t1_14.
  - exists 64715719199968089545068383275043113115131965984698509435186423212657452236699, 37861092312862231610700917336955293410732275606119045543189054690171468843413. split; [exact (S 14%nat ltac:(lia))|].
    replace (tab_scalar 1 15) with 26959946667150639796128516724350533591920057417771119838357381709824 by (vm_compute; reflexivity). exact t1_15.
Qed.
