(** * Model of RandomUtils::normal, and the simulation with the generator

    [boost::random::normal_distribution<float>] (stun/random_utils.h:67) is
    transcribed from Boost.Random (Boost 1.77), which is not part of /repo.
    It is the ziggurat method of Marsaglia and Tsang with 128 layers; its
    tail takes exponentially distributed numbers, which come from a ziggurat
    of 256 layers.  The known answers of test/simulation.cpp hold for this
    transcription (RepoTestsSimulation.v).  [std::exp] is an arbitrary
    function.  Fuel bounds the number of rounds of every loop. *)

From Coq Require Import List ZArith Bool Arith.
From Flocq Require Import BinarySingleNaN.
From Verif Require Import Base F32 ProjectModel ScheduleModel HistogramModel SimulationModel
  RandomModel.
Import ListNotations.
Local Open Scope Z_scope.

(** ** Tables

    The numbers are those of type [double] that Boost holds, times
    [2 ^ 64]: the right edges of the layers and the heights of the curve
    there. *)

(** [normal_table::table_x] of Boost, for stun/random_utils.cpp:28. *)
Definition normal_x : list Z := [
    68494351717230239744; 63505127424796401664; 59455423838337875968; 56875533668153311232;
    54947247445860319232; 53391223158748422144; 52077470829523009536; 50934584756535713792;
    49918984517712773120; 49002049224241119232; 48163936850320621568; 47390305814130556928;
    46670440930504450048; 45996117428463976448; 45360878991251546112; 44759560663260938240;
    44187963071794970624; 43642623675809300480; 43120652229956378624; 42619609927518232576;
    42137418973013483520; 41672293806357094400; 41222688024394899456; 40787252875649253376;
    40364804417531748352; 39954297246601371648; 39554803278812463104; 39165494453907791872;
    38785628521014788096; 38414537266859548672; 38051616697559097344; 37696318795708571648;
    37348144557421150208; 37006638076733579264; 36671381492728733696; 36341990651675312128;
    36018111365202857984; 35699416168026066944; 35385601496484343808; 35076385223268683776;
    34771504494989762560; 34470713828320161792; 34173783427792486400; 33880497694316138496;
    33590653898368774144; 33304060995841380352; 33020538567838953472; 32739915868495429632;
    32462030967158198272; 32186729973218250752; 31913866333474332672; 31643300193277390848;
    31374897813849210880; 31108531039141281792; 30844076806426198016; 30581416695517130752;
    30320436512111087616; 30061025901264109568; 29803077987444883456; 29546489037987823616;
    29291158147086819328; 29036986937743757312; 28783879279317762048; 28531741018517147648;
    28280479721839943680; 28030004427604783104; 27780225405823651840; 27531053924254507008;
    27282402019036196864; 27034182268351586304; 26786307567588470784; 26538690904471433216;
    26291245132621553664; 26043882741964091392; 25796515624345939968; 25549054832643145728;
    25301410331532427264; 25053490737966235648; 24805203049225420800; 24556452356222787584;
    24307141539489218560; 24057170944985497600; 23806438036539305984; 23554837021298659328;
    23302258444107980800; 23048588746136989696; 22793709782406868992; 22537498292041048064;
    22279825314091143168; 22020555540617719808; 21759546597297221632; 21496648240125661184;
    21231701454727794688; 20964537442268778496; 20694976472891236352; 20422826583818477568;
    20147882094585204736; 19869921906033422336; 19588707542417637376; 19303980886767157248;
    19015461547975041024; 18722843783138967552; 18425792879399493632; 18123940874429417472;
    17816881461765267456; 17504163883431041024; 17185285553627856896; 16859683077623076864;
    16526721220496664576; 16185679227818493952; 15835733684430118912; 15475936786917369856;
    15105188450344404992; 14722199989632378880; 14325446076092069888; 13913100039367315456;
    13482944955667914752; 13032248583195926528; 12557582633971445760; 12054553206012493824;
    11517383254781032448; 10938235644420935680; 10306051630476466176; 9604408696794157056;
    8807173594926016512; 7868421538493237248; 6693796419841979392; 5023433297138217984; 0].

(** [normal_table::table_y] of Boost, for stun/random_utils.cpp:28. *)
Definition normal_y : list Z := [
    0; 49245964482481168; 102360894704638848; 159093656733025568; 218399832769945952; 279787264692551168;
    342963760984612608; 407734003436653504; 473957580757257344; 541528474766938688; 610363767684620288;
    680396880268415232; 751573260204573696; 823847495130702464; 897181302427879296; 971542083941126272;
    1046901858745304320; 1123236457071026048; 1200524899603113216; 1278748911474018816; 1357892536149461760;
    1437941824742043648; 1518884583199048448; 1600710164537198080; 1683409296596937216; 1766973938135303168;
    1851397157772941056; 1936673031555988736; 2022796555820106240; 2109763572742100992; 2197570706496833536;
    2286215308347184640; 2375695409314000896; 2466009679323621888; 2557157391929214464; 2649138393860818944;
    2741953078786775552; 2835602364772825600; 2930087675009869824; 3025410921451008000; 3121574491056227840;
    3218581234391228416; 3316434456367330304; 3415137908943613440; 3514695785641604608; 3615112717747862016;
    3716393772101518336; 3818544450382779392; 3921570689835126272; 4025478865368869888; 4130275793007183360;
    4235968734648017920; 4342565404126692864; 4450073974574638592; 4558503087079926272; 4667861860665088000;
    4778159903607348224; 4889407326136042496; 5001614754551699456; 5114793346821204992; 5228954809713819648;
    5344111417553607680; 5460276032675322880; 5577462127683057664; 5695683809624169472; 5814955846205373440;
    5935293694193559552; 6056713530161131520; 6179232283754711040; 6302867673687157760; 6427638246676379648;
    6553563419580715008; 6680663525010142208; 6808959860725793792; 6938474743177721856; 7069231565573297152;
    7201254860916796416; 7334570370515623936; 7469205118511268864; 7605187493064845312; 7742547334909530112;
    7881316034077115392; 8021526635715641344; 8163213956042190848; 8306414709622753280; 8451167649343502336;
    8597513720639630336; 8745496231784909824; 8895161042324617216; 9046556772065098752; 9199735033426196480;
    9354750690431488000; 9511662148173123584; 9670531677264312320; 9831425778610735104; 9994415594827040768;
    10159577375840735232; 10326993007721160704; 10496750615620620288; 10668945254016911360;
    10843679700331532288; 11021065371639441408; 11201223388818163712; 11384285818424027136;
    11570397130267705344; 11759715918696298496; 11952416948827201536; 12148693606633752576;
    12348760855607975936; 12552858835292776448; 12761257282119768064; 12974261016530491392;
    13192216831313137664; 13415522248720252928; 13644636811373434880; 13880096872721655808;
    14122535322986020864; 14372708443399106560; 14631533341526556672; 14900141600793931776;
    15179958725018402816; 15472826500388913152; 15781200768558729216; 16108491037699495936;
    16459691254017153024; 16842682502635278336; 17271367010120779776; 17775276929149497344;
    18446744073709551616].

(** [exponential_table::table_x] of Boost, for stun/random_utils.cpp:28. *)
Definition exponential_x : list Z := [
    160433500150495739904; 141986756076786204672; 128039470968132796416; 119504990088353366016;
    113339833136233988096; 108506410798103117824; 104526818175690244096; 101141480190114037760;
    98193688240844537856; 95581569799349878784; 93235166249381036032; 91104356940721438720;
    89152002526350376960; 87349815685137825792; 85675753162765058048; 84112302620723888128;
    82645319484237086720; 81263214652569255936; 79956373272720474112; 78716729934138146816;
    77537452338786598912; 76412701814973235200; 75337449306999996416; 74307332098650505216;
    73318540905744736256; 72367729925166522368; 71451944456444002304; 70568562129928462336;
    69715244782212349952; 68889898744225718272; 68090641836207341568; 67315775754168999936;
    66563762823988502528; 65833206319203385344; 65122833706119389184; 64431482308632961024;
    63758086984998567936; 63101669486773788672; 62461329231575072768; 61836235269947817984;
    61225619265490337792; 60628769338552705024; 60045024649016180736; 59473770614112468992;
    58914434673943445504; 58366482531066429440; 57829414801810948096; 57302764026353328128;
    56786091992363130880; 56278987333540790272; 55781063369822855168; 55291956160624738304;
    54811322746373038080; 54338839556871102464; 53874200967841865728; 53417117989382324224;
    52967317072110477312; 52524539018542825472; 52088537988753899520; 51659080590676082688;
    51235945046529441792; 50818920427853651968; 50407805952468434944; 50002410337434918912;
    49602551202741755904; 49208054521011060736; 48818754109020979200; 48434491157282619392;
    48055113794298634240; 47680476682474061824; 47310440642954805248; 46944872306938576896;
    46583643791243018240; 46226632396129017856; 45873720323567386624; 45524794414306713600;
    45179745902252285952; 44838470184801583104; 44500866607904235520; 44166838264723537920;
    43836291806875394048; 43509137267309281280; 43185287893975965696; 42864659993498836992;
    42547172784131588096; 42232748257343651840; 41921311047428997120; 41612788308582350848;
    41307109598931320832; 41004206771053215744; 40704013868541935616; 40406467028224032768;
    40111504387653246976; 39819065997541072896; 39529093738806198272; 39241531243949047808;
    38956323822479269888; 38673418390143361024; 38392763401717882880; 38114308787150118912;
    37838005890843369472; 37563807413898076160; 37291667359132770304; 37021540978720931840;
    36753384724290699264; 36487156199344459776; 36222814113864941568; 35960318240982822912;
    35699629375589089280; 35440709294782644224; 35183520720050712576; 34928027281085767680;
    34674193481148772352; 34421984663893962752; 34171366981575417856; 33922307364560560128;
    33674773492079972352; 33428733764147085312; 33184157274585088000; 32941013785101971456;
    32699273700357849088; 32458908043971842048; 32219888435418648576; 31982187067767586816;
    31745776686219354112; 31510630567398088704; 31276722499358511104; 31044026762269814784;
    30812518109739982848; 30582171750745829376; 30352963332135780352; 30124868921673830400;
    29897864991594582016; 29671928402640490496; 29447036388553736192; 29223166540996190208;
    29000296794871959552; 28778405414027997184; 28557470977309097984; 28337472364944375808;
    28118388745243095040; 27900199561578323968; 27682884519637512192; 27466423574919606272;
    27250796920458747904; 27035984974755069952; 26821968369893359616; 26608727939830755328;
    26396244708834705408; 26184499880052781056; 25973474824195858432; 25763151068316352512;
    25553510284663119872; 25344534279594598400; 25136204982531608576; 24928504434930978816;
    24721414779261054976; 24514918247959592960; 24308997152354316288; 24103633871525814272;
    23898810841091948544; 23694510541892239360; 23490715488550023168; 23287408217889243136;
    23084571277181861888; 22882187212200792064; 22680238555052097536; 22478707811758833664;
    22277577449567555584; 22076829883946831872; 21876447465245380608; 21676412464975433728;
    21476707061684936704; 21277313326379560960; 21078213207453241344; 20879388515082719232;
    20680820905038716928; 20482491861862723584; 20284382681354559488; 20086474452311715840;
    19888748037456781312; 19691184053484081152; 19493762850151096320; 19296464488333799424;
    19099268716958261248; 18902154948713086976; 18705102234438737920; 18508089236080398336;
    18311094198080440320; 18114094917074921472; 17917068709745457152; 17719992378663309312;
    17522842175946235904; 17325593764530483200; 17128222176839907328; 16930701770611255296;
    16733006181608970240; 16535108272933754880; 16336980080596416512; 16138592754991417344;
    15939916497862543360; 15740920494305368064; 15541572839296878592; 15341840458180659200;
    15141689020465172480; 14941082846211471360; 14739984804193353728; 14538356200905515008;
    14336156659371036672; 14133343986555772928; 13929874028030117888; 13725700508323909632;
    13520774855192713216; 13315046005746817024; 13108460192080207872; 12900960703665864704;
    12692487623344027648; 12482977533206718464; 12272363186056488960; 12060573137366718464;
    11847531331765964800; 11633156636972564480; 11417362316771262464; 11200055432990167040;
    10981136164426242048; 10760497028178925568; 10538021985751494656; 10313585412392564736;
    10087050903241424896; 9858269883596109824; 9627079982614831104; 9393303119404384256;
    9156743236931822592; 8917183601380861952; 8674383560847484928; 8428074625307564032; 8177955686202614784;
    7923687133750956032; 7664883545617730560; 7401104500215203840; 7131842893374929920; 6856509879109051392;
    6574415165418042368; 6284740793016716288; 5986505566077879296; 5678515732342319104; 5359294841204820992;
    5026980989232594944; 4679170911535951872; 4312673207870763008; 3923096928378656768; 3504119332042244096;
    3046066992941688320; 2532829843446002688; 1933929118136347392; 1177864524447947008; 0].

(** [exponential_table::table_y] of Boost, for stun/random_utils.cpp:28. *)
Definition exponential_y : list Z := [
    0; 8377300200393547; 17842968901450098; 28339728867719316; 39586117758818592; 51444257618130936;
    63830618784028808; 76688559132902448; 89976871608004560; 103664101582135808; 117725385528214368;
    132140542888107088; 146892851538231072; 161968223429774880; 177354627882019904; 193041675189410144;
    209020307934977696; 225282566963656608; 241821410506909088; 258630572027734752; 275704446845516224;
    293038000533715968; 310626694049814464; 328466421905263744; 346553460626776320; 364884425432641408;
    383456233534821440; 402266072835694016; 421311375055201664; 440589792525572544; 460099178044494336;
    479837567296186048; 499803163442158592; 519994323556025088; 540409546634238464; 561047462960571392;
    581906824639117056; 602986497140533376; 624285451730669696; 645802758670739968; 667537581094733312;
    689489169483454208; 711656856666013568; 734040053289159808; 756638243702896000; 779450982217639168;
    802477889693950080; 825718650430793984; 849173009322495744; 872840769258173824; 896721788740548224;
    920815979703707136; 945123305511754752; 969643779122283008; 994377461400388224; 1019324459570492544;
    1044484925794592000; 1069859055866742784; 1095447088014652032; 1121249301800163840; 1147266017111259904;
    1173497593238918912; 1199944428032834304; 1226606957130567680; 1253485653255229952; 1280581025577254912;
    1307893619136236544; 1335424014319185920; 1363172826391892224; 1391140705080383488; 1419328334199758336;
    1447736431327907328; 1476365747521870848; 1505217067074791680; 1534291207311603200; 1563589018421771776;
    1593111383327569664; 1622859217586495488; 1652833469326603776; 1683035119213616640; 1713465180448813824;
    1744124698796800512; 1775014752642349824; 1806136453075613952; 1837490944005074944; 1869079402297698304;
    1900903037945820928; 1932963094260376832; 1965260848090138624; 1997797610066710272; 2030574724875071232;
    2063593571549533952; 2096855563795027712; 2130362150333683712; 2164114815276743424; 2198115078521867264;
    2232364496175971328; 2266864661003768832; 2301617202902240512; 2336623789401311232; 2371886126191049728;
    2407405957675769344; 2443185067555438592; 2479225279434874368; 2515528457461231616; 2552096506990349312;
    2588931375282571776; 2626035052228702208; 2663409571106816000; 2701057009370687488; 2738979489470667776;
    2777179179707883008; 2815658295122694656; 2854419098418416128; 2893463900921345024; 2932795063578233856;
    2972414997992385536; 3012326167499633664; 3052531088285536768; 3093032330545195520; 3133832519687171072;
    3174934337583079936; 3216340523864512512; 3258053877269024768; 3300077257037042688; 3342413584361615872;
    3385065843893074944; 3428037085300743168; 3471330424893983744; 3514949047304974848; 3558896207235754496;
    3603175231272186368; 3647789519767683584; 3692742548799636992; 3738037872201704448; 3783679123675248640;
    3829670018983432704; 3876014358231651840; 3922716028238199808; 3969779004999289344; 4017207356252776960;
    4065005244145196032; 4113176928006964224; 4161726767240920576; 4210659224329648640; 4259978867967356928;
    4309690376322445824; 4359798540437245440; 4410308267771814912; 4461224585899095552; 4512552646359186432;
    4564297728680962048; 4616465244579801088; 4669060742340718592; 4722089911396812800; 4775558587113556992;
    4829472755790171136; 4883838559890026496; 4938662303512848384; 4993950458122320896; 5049709668543629312;
    5105946759246473216; 5162668740930137088; 5219882817428388864; 5277596392953213952; 5335817079697744896;
    5394552705820231680; 5453811323832483840; 5513601219417920512; 5573930920706274304; 5634809208034016256;
    5696245124221768704; 5758247985402427392; 5820827392436307968; 5883993242952514560; 5947755744058887168;
    6012125425766265856; 6077113155176616960; 6142730151488625664; 6208988001878916096; 6275898678321983488;
    6343474555417384960; 6411728429298716672; 6480673537705540608; 6550323581306695680; 6620692746371494912;
    6691795728894240768; 6763647760287370240; 6836264634769504256; 6909662738586887168; 6983859081220251648;
    7058871328744288256; 7134717839523767296; 7211417702449287168; 7288990777936723968; 7367457741938270208;
    7446840133239588864; 7527160404347703296; 7608441976308170752; 7690709297828434944; 7773987909127732224;
    7858304510983257088; 7943687039498461184; 8030164747183379456; 8117768291010087936; 8206529828190257152;
    8296483120518154240; 8387663648233368576; 8480108734485751808; 8573857681633456128; 8668951920777359360;
    8765435176136033280; 8863353646100135936; 8962756203080397824; 9063694614587238400; 9166223788362553344;
    9270402044837568512; 9376291420730179584; 9483958008239876096; 9593472335072022528; 9704909791455959040;
    9818351111451207680; 9933882917211398144; 10051598336558854144; 10171597706294274048;
    10293989376230443008; 10418890632133492736; 10546428759761033216; 10676742277245036544;
    10809982369503191040; 10946314566615887872; 11085920718781202432; 11229001334393849856;
    11375778366159888384; 11526498554623033344; 11681437471438612480; 11840904449688291328;
    12005248650675845120; 12174866603817357312; 12350211680485742592; 12531806142896252928;
    12720256675676368896; 12916274710603378688; 13120703478660214784; 13334554715684018176;
    13559059575510134784; 13795741070518726656; 14046520255613616128; 14313877461825320960;
    14601107746499708928; 14912747309290543104; 15255333693847713792; 15638882159412465664;
    16080106727379908608; 16610738343411419136; 17305696385232386048; 18446744073709551616].

(** [RealType(table[i])] (Boost, for stun/random_utils.cpp:28). *)
Definition table_float (z : Z) : f32 := binary_normalize 24 128 eq_refl eq_refl mode_NE z (-64) false.

(** An entry of a table (Boost, for stun/random_utils.cpp:28). *)
Definition entry_at (t : list Z) (i : Z) : Z := nth (Z.to_nat i) t 0.

(** An entry as [float] (Boost, for stun/random_utils.cpp:28). *)
Definition float_at (t : list Z) (i : Z) : f32 := table_float (entry_at t i).

(** [RealType(table[j] - table[i])] (Boost, for
    stun/random_utils.cpp:28).  The difference is rounded once; for these
    tables rounding it to [double] first gives the same. *)
Definition float_between (t : list Z) (i j : Z) : f32 := table_float (entry_at t j - entry_at t i).

(** [generate_int_float_pair<float, 8>] of Boost, for
    stun/random_utils.cpp:28: the low 8 bits of a number, and the other 24
    as a fraction. *)
Definition layer_of (u : Z) : Z := u mod 2 ^ 8.
(** The fraction (Boost, for stun/random_utils.cpp:28). *)
Definition fraction_of (u : Z) : f32 := f_mul (f_of_Z (u / 2 ^ 8)) (f_div f_one (f_of_Z (2 ^ 24))).

(** The test of the wedge of layer [i] between two lines, one above and one
    below the curve (Boost, for stun/random_utils.cpp:28). *)
Definition in_wedge (above_upper above_lower y curve : f32) : bool :=
  f_lt above_upper f_zero && (f_lt above_lower f_zero || f_lt y curve).

(** [unit_exponential_distribution<float>] of Boost, for
    stun/random_utils.cpp:28; [shift] is the local variable. *)
Fixpoint draw_exponential (fuel : nat) (exp : f32 -> f32) (shift : f32) (g : generator)
  : outcome (f32 * generator) :=
  match fuel with
  | O => NoFuel
  | S fuel' =>
      let '(u, g1) := draw g in
      let i := layer_of u in
      let x := f_mul (fraction_of u) (float_at exponential_x i) in
      if f_lt x (float_at exponential_x (i + 1)) then Ok (f_add shift x, g1)
      else if i =? 0 then draw_exponential fuel' exp (f_add shift (float_at exponential_x 1)) g1
      else
        r <- draw_01 fuel' g1 ;;
        let y01 := fst r in
        let y := f_add (float_at exponential_y i) (f_mul y01 (float_between exponential_y i (i + 1))) in
        let above_upper := f_sub (f_mul (float_between exponential_x (i + 1) i) y01)
                                 (f_sub (float_at exponential_x i) x) in
        let above_lower := f_sub y (f_add (float_at exponential_y (i + 1))
                                          (f_mul (f_sub (float_at exponential_x (i + 1)) x)
                                                 (float_at exponential_y (i + 1)))) in
        if in_wedge above_upper above_lower y (exp (Bopp x))
        then Ok (f_add x shift, snd r)
        else draw_exponential fuel' exp shift (snd r)
  end.

(** [generate_tail] of [unit_normal_distribution<float>] of Boost, for
    stun/random_utils.cpp:28. *)
Fixpoint draw_tail (fuel : nat) (exp : f32 -> f32) (g : generator) : outcome (f32 * generator) :=
  match fuel with
  | O => NoFuel
  | S fuel' =>
      let tail_start := float_at normal_x 1 in
      r1 <- draw_exponential fuel exp f_zero g ;;
      r2 <- draw_exponential fuel exp f_zero (snd r1) ;;
      let x := f_div (fst r1) tail_start in
      let y := f_div (fst r2) f_one in
      if f_lt (f_mul x x) (f_mul (f_of_Z 2) y) then Ok (f_add x tail_start, snd r2)
      else draw_tail fuel' exp (snd r2)
  end.

(** [unit_normal_distribution<float>] of Boost, for
    stun/random_utils.cpp:28. *)
Fixpoint draw_unit_normal (fuel : nat) (exp : f32 -> f32) (g : generator) : outcome (f32 * generator) :=
  match fuel with
  | O => NoFuel
  | S fuel' =>
      let '(u, g1) := draw g in
      let sign := f_of_Z (layer_of u mod 2 * 2 - 1) in
      let i := layer_of u / 2 in
      let x := f_mul (fraction_of u) (float_at normal_x i) in
      if f_lt x (float_at normal_x (i + 1)) then Ok (f_mul x sign, g1)
      else if i =? 0 then r <- draw_tail fuel' exp g1 ;; Ok (f_mul (fst r) sign, snd r)
      else
        r <- draw_01 fuel' g1 ;;
        let y01 := fst r in
        let y := f_add (float_at normal_y i) (f_mul y01 (float_between normal_y i (i + 1))) in
        let chord := f_sub (f_mul (float_between normal_x (i + 1) i) y01) (f_sub (float_at normal_x i) x) in
        let tangent := f_sub y (f_add (float_at normal_y i)
                                      (f_mul (f_mul (f_sub (float_at normal_x i) x) (float_at normal_y i))
                                             (float_at normal_x i))) in
        let curve := exp (Bopp (f_div (f_mul x x) (f_of_Z 2))) in
        let accepted := if 2 ^ 64 <=? entry_at normal_x i
                        then in_wedge chord tangent y curve
                        else in_wedge tangent chord y curve in
        if accepted then Ok (f_mul x sign, snd r) else draw_unit_normal fuel' exp (snd r)
  end.

(** Half of the largest [float] and twice the smallest normal one, for
    [std::midpoint] (stun/random_utils.cpp:30). *)
Definition half_max : f32 := binary_normalize 24 128 eq_refl eq_refl mode_NE (2 ^ 24 - 1) 103 false.
(** The second bound (stun/random_utils.cpp:30). *)
Definition twice_min : f32 := binary_normalize 24 128 eq_refl eq_refl mode_NE 1 (-125) false.

(** [std::midpoint] of numbers that are not negative, as in libstdc++
    (stun/random_utils.cpp:30). *)
Definition midpoint (a b : f32) : f32 :=
  let half x := f_div x (f_of_Z 2) in
  if f_le a half_max && f_le b half_max then half (f_add a b)
  else if f_lt a twice_min then f_add a (half b)
  else if f_lt b twice_min then f_add (half a) b
  else f_add (half a) (half b).

(** [RandomUtils::normal], stun/random_utils.cpp:23-32. *)
Definition draw_normal (fuel : nat) (exp : f32 -> f32) (lo hi : f32) (g : generator)
  : outcome (f32 * generator) :=
  _ <- expects (f_lt lo hi) ;;
  _ <- expects (f_le f_zero lo) ;;
  let sigma := f_div (f_sub hi lo) (f_of_Z 4) in
  r <- draw_unit_normal fuel exp g ;;
  Ok (f_add (f_mul (fst r) sigma) (midpoint lo hi), snd r).

(** ** The simulation with the generator *)

(** [x = normal(min, max); while (x <= 0.F) x = normal(min, max);] with the
    generator, simulation.cpp:144-145 and 173-175. *)
Fixpoint positive_random (fuel : nat) (exp : f32 -> f32) (lo hi : f32) (g : generator)
  : outcome (f32 * generator) :=
  match fuel with
  | O => NoFuel
  | S fuel' =>
      r <- draw_normal fuel exp lo hi g ;;
      if f_le (fst r) f_zero then positive_random fuel' exp lo hi (snd r) else Ok r
  end.

(** The bodies of the loops of simulation.cpp:136-148 and 163-178 with the
    generator. *)
Definition sample_random (fuel : nat) (exp : f32 -> f32) (lo hi : f32) (g : generator)
  : outcome (f32 * generator) :=
  if f_eq lo hi then Ok (lo, g) else positive_random fuel exp lo hi g.

(** The loops of simulation.cpp:136 and 163 with the generator. *)
Fixpoint samples_random (fuel : nat) (exp : f32 -> f32) (bounds : list (f32 * f32)) (g : generator)
  : outcome (list f32 * generator) :=
  match bounds with
  | [] => Ok ([], g)
  | b :: bounds' =>
      r <- sample_random fuel exp (fst b) (snd b) g ;;
      rs <- samples_random fuel exp bounds' (snd r) ;;
      Ok (fst r :: fst rs, snd rs)
  end.

(** [random_agent_performances] with the generator,
    simulation.cpp:129-149. *)
Definition performances_random (fuel : nat) (exp : f32 -> f32) (s : simulation) (g : generator)
  : outcome (list f32 * generator) :=
  _ <- expects (negb (length (pr_agents (si_config s)) =? 0)%nat) ;;
  _ <- expects (length (pr_agents (si_config s)) =? length (si_perf s))%nat ;;
  samples_random fuel exp (map perf_bounds (pr_agents (si_config s))) g.

(** [random_task_durations] with the generator, simulation.cpp:156-179. *)
Definition durations_random (fuel : nat) (exp : f32 -> f32) (s : simulation) (g : generator)
  : outcome (list f32 * generator) :=
  _ <- expects (negb (length (pr_tasks (si_config s)) =? 0)%nat) ;;
  _ <- expects (length (pr_tasks (si_config s)) =? length (si_dur s))%nat ;;
  samples_random fuel exp (map duration_bounds (pr_tasks (si_config s))) g.

(** [Simulation::operator()] with the generator, simulation.cpp:276-303:
    the result and the object. *)
Definition sim_run_random (fuel : nat) (exp : f32 -> f32) (s : simulation) (l : list item) (g : generator)
  : outcome ((Z * simulation) * generator) :=
  _ <- expects (negb (length (si_buffer s) =? 0)%nat) ;;
  _ <- expects (negb (length (si_perf s) =? 0)%nat) ;;
  _ <- expects (negb (length (si_dur s) =? 0)%nat) ;;
  _ <- expects (negb (length (si_work s) =? 0)%nat) ;;
  _ <- expects (negb (length (si_done s) =? 0)%nat) ;;
  _ <- expects (length l =? length (si_done s))%nat ;;
  let s0 := {| si_config := si_config s;
               si_perf := repeat f_zero (length (si_perf s));
               si_dur := repeat f_zero (length (si_dur s));
               si_work := repeat f_zero (length (si_work s));
               si_done := repeat f_zero (length (si_done s)) |} in
  perfs <- performances_random fuel exp s0 g ;;
  durs <- durations_random fuel exp s0 (snd perfs) ;;
  let s1 := {| si_config := si_config s; si_perf := fst perfs; si_dur := fst durs;
               si_work := si_work s0; si_done := si_done s0 |} in
  s2 <- sim_loop s1 l ;;
  z <- to_rep (f_max_list f_zero (si_work s2)) ;;
  Ok ((z, s2), snd durs).

(** [n] runs of a simulation object one after the other
    (simulation.cpp:410-419, the calls of line 415): the results, the last
    one last. *)
Fixpoint sim_runs_random (n : nat) (fuel : nat) (exp : f32 -> f32) (s : simulation) (l : list item) (g : generator)
  : outcome ((list Z * simulation) * generator) :=
  match n with
  | O => Ok (([], s), g)
  | S n' =>
      r <- sim_run_random fuel exp s l g ;;
      rs <- sim_runs_random n' fuel exp (snd (fst r)) l (snd r) ;;
      Ok ((fst (fst r) :: fst (fst rs), snd (fst rs)), snd rs)
  end.
