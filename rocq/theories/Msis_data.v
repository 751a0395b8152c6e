(* The coefficient arrays of src/atmosphere/nrlmsise00_data.cpp and the constructor in it, as
   rational numbers; generated from the source text. *)
From Coq Require Import List QArith Qreals Reals.
From Verif Require Import Msis_model.
Import ListNotations.
Local Open Scope Q_scope.
(* nrlmsise00_data.cpp:5 *)
Definition q_ptm : list Q :=
  [10413#10; 386; 195; 166728#10000; 213; 120; 240; 187; -2; 0].
(* nrlmsise00_data.cpp:10 *)
Definition q_pdm : list (list Q) :=
  [ [24560000; 671072#100000000000; 100; 0; 110; 10; 0; 0; 0; 0];
  [85940000000; 1; 105; -8; 110; 10; 90; 2; 0; 0];
  [281000000000; 0; 105; 28; 2895#100; 0; 0; 0; 0; 0];
  [33000000000; 26827#100000; 105; 1; 110; 10; 110; -10; 0; 0];
  [1330000000; 119615#10000000; 105; 0; 110; 10; 0; 0; 0; 0];
  [176100; 1; 95; -8; 110; 10; 90; 2; 0; 0];
  [10000000; 1; 105; -8; 110; 10; 90; 2; 0; 0];
  [1000000; 1; 105; -8; 550; 76; 90; 2; 0; 4000] ].
(* nrlmsise00_data.cpp:40 *)
Definition q_pavgm : list Q :=
  [261; 264; 229; 217; 217; 223; 28676#100; (-29394)#10000; 25#10; 0].
(* nrlmsise00_data.cpp:48 *)
Definition q_pma : list (list Q) :=
  [ [981637#1000000; (-141317)#100000000; 387323#10000000; 0; 0; 0; 0; 0; 0; (-358707)#10000000; (-863658)#100000000; 0; 0; (-202226)#100000; 0;
   (-869424)#100000000; (-191397)#10000000; 876779#10000; 452188#100000000; 0; 22376#1000000; 0; 0; 0; 0; 0; (-707572)#100000000; 0; 0; 0;
   (-41121)#10000000; 35006#1000; 0; 0; 0; 0; 0; (-836657)#100000000; 161347#10000; 0; 0; 0; 0; 0; 0; 0; 0; (-14513)#1000000; 0; 0; 0; 0; 0; 0; 0; 0; 0;
   0; 0; 0; 0; 0; 0; 0; 124152#100000000; 643365#1000000000; 0; 0; 0; 0; 0; 0; 0; 0; 133255#100000000; 242657#100000000; 160666#100000000;
   (-185728)#100000000; (-146874)#100000000; (-479163)#100000000000; 122464#100000; 35351#1000; 0; 449223#1000000; (-477466)#10000; 470681#1000000;
   841861#100000; (-288198)#1000000; 167854#1000; 0; 711493#1000000000; 605601#1000000000; 0; 0; 0; 0; 0; 0; 0; 2];
  [100422#100000; (-711212)#100000000; 52448#10000000; 0; 0; 0; 0; 0; 0; (-528914)#10000000; (-241301)#10000000; 0; 0; (-212219)#10000;
   (-10383)#1000000; (-328077)#100000000; 165727#10000000; 168564#100000; (-668154)#100000000; 0; 145155#10000000; 0; 842365#100000000; 0; 0; 0;
   (-434645)#100000000; 0; 0; 21678#1000000; 0; (-138459)#1000; 0; 0; 0; 0; 0; 704573#100000000; (-473204)#10000; 0; 0; 0; 0; 0; 0; 0; 0;
   108767#10000000; 0; 0; 0; 0; 0; 0; 0; 0; 0; 0; 0; (-808279)#100000000; 0; 0; 0; 0; 521769#1000000000; (-227387)#1000000000; 0; 0; 0; 0; 0; 0; 0; 0;
   326769#100000000; 316901#100000000; 460316#1000000000; (-101431)#1000000000; 102131#100000000; 996601#1000000000; 125707#100000; 250114#10000; 0;
   424472#1000000; (-277655)#10000; 344625#1000000; 275412#10000; 0; 794251#1000; 0; 245835#100000000; 138871#100000000; 0; 0; 0; 0; 0; 0; 0; 2];
  [10189#10000; (-246603)#10000000; 100078#10000000; 0; 0; 0; 0; 0; 0; (-670977)#10000000; (-402286)#10000000; 0; 0; (-229466)#10000;
   (-747019)#100000000; 22658#10000000; 263931#10000000; 372625#10000; (-639041)#100000000; 0; 958383#100000000; 0; 0; 0; 0; 0; (-185291)#100000000; 0;
   0; 0; 0; 139717#1000; 0; 0; 0; 0; 0; 919771#100000000; (-369121)#1000; 0; 0; 0; 0; 0; 0; 0; 0; (-157067)#10000000; 0; 0; 0; 0; 0; 0; 0; 0; 0; 0; 0;
   (-707265)#100000000; 0; 0; 0; 0; (-292953)#100000000; (-277739)#100000000; (-440092)#1000000000; 0; 0; 0; 0; 0; 0; 0; 24728#10000000;
   295035#1000000000; (-181246)#100000000; 281945#100000000; 427296#100000000; 978863#1000000000; 140545#100000; (-619173)#100000; 0; 0;
   (-793632)#10000; 444643#1000000; (-403085)#1000; 0; 115603#10000; 0; 225068#100000000; 848557#1000000000; (-298493)#1000000000; 0; 0; 0; 0; 0; 0; 2];
  [975801#1000000; 38068#1000000; (-305198)#10000000; 0; 0; 0; 0; 0; 0; 385575#10000000; 504057#10000000; 0; 0; (-176046)#1000; 144594#10000000;
   (-148297)#100000000; (-36856)#10000000; 302185#10000; (-323338)#100000000; 0; 153569#10000000; 0; (-115558)#10000000; 0; 0; 0; 48962#10000000; 0; 0;
   (-100616)#10000000; (-821324)#100000000; (-157757)#1000; 0; 0; 0; 0; 0; 663564#100000000; 45841#1000; 0; 0; 0; 0; 0; 0; 0; 0; (-25128)#1000000; 0; 0;
   0; 0; 0; 0; 0; 0; 0; 0; 0; 991215#100000000; 0; 0; 0; 0; (-873148)#1000000000; (-129648)#100000000; (-732026)#10000000000; 0; 0; 0; 0; 0; 0; 0;
   (-46811)#10000000; (-466003)#100000000; (-131567)#100000000; (-73939)#100000000; 632499#1000000000; (-465588)#1000000000; (-129785)#100000;
   (-157139)#1000; 0; 25835#100000; (-369453)#10000; 410672#1000000; 978196#100000; (-152064)#1000000; (-385084)#100; 0; (-852706)#1000000000;
   (-140945)#100000000; (-726786)#1000000000; 0; 0; 0; 0; 0; 0; 2];
  [960722#1000000; 703757#10000000; (-300266)#10000000; 0; 0; 0; 0; 0; 0; 222671#10000000; 410423#10000000; 0; 0; (-16307)#100; 106073#10000000;
   540747#1000000000; 779481#100000000; 144908#1000; 151484#1000000000; 0; 197547#10000000; 0; (-141844)#10000000; 0; 0; 0; 577884#100000000; 0; 0;
   974319#100000000; 0; (-288015)#100; 0; 0; 0; 0; 0; (-444902)#100000000; (-29276)#1000; 0; 0; 0; 0; 0; 0; 0; 0; 234419#10000000; 0; 0; 0; 0; 0; 0; 0;
   0; 0; 0; 0; 536685#100000000; 0; 0; 0; 0; (-465325)#1000000000; (-550628)#1000000000; 331465#1000000000; 0; 0; 0; 0; 0; 0; 0; (-206179)#100000000;
   (-308575)#100000000; (-793589)#1000000000; (-108629)#1000000000; 595511#1000000000; (-90505)#100000000; 118997#100000; 415924#10000; 0;
   (-472064)#1000000; (-94715)#100; 398723#1000000; 198304#10000; 0; 373219#100; 0; (-15004)#10000000; (-114933)#100000000; (-156769)#1000000000; 0; 0;
   0; 0; 0; 0; 2];
  [103123#100000; (-705124)#10000000; 871615#100000000; 0; 0; 0; 0; 0; 0; (-382621)#10000000; (-980975)#100000000; 0; 0; 289286#10000; 957341#100000000;
   0; 0; 866153#10000; 791938#1000000000; 0; 0; 0; 468917#100000000; 0; 0; 0; 786638#100000000; 0; 0; 990827#100000000; 0; 655573#10000; 0; 0; 0; 0; 0;
   0; (-4002)#100; 0; 0; 0; 0; 0; 0; 0; 0; 707457#100000000; 0; 0; 0; 0; 0; 0; 0; 0; 0; 0; 0; 572268#100000000; 0; 0; 0; 0; (-20497)#100000000;
   12156#10000000; (-805579)#100000000000; 0; 0; 0; 0; 0; 0; 0; (-249941)#100000000; (-457256)#1000000000; (-159311)#1000000000; 296481#1000000000;
   (-177318)#100000000; (-637918)#1000000000; 102395#100000; 128172#10000; 0; 149903#1000000; (-263818)#10000; 0; 470628#10000; (-222139)#1000000;
   482292#10000000; 0; (-867075)#1000000000; (-586479)#1000000000; 532462#1000000000; 0; 0; 0; 0; 0; 0; 2];
  [100828#100000; (-910404)#10000000; (-226549)#10000000; 0; 0; 0; 0; 0; 0; (-23242)#1000000; (-908925)#100000000; 0; 0; 336105#10000; 0; 0; 0;
   (-124957)#10000; (-587939)#100000000; 0; 0; 0; 0; 0; 0; 0; 0; 0; 0; 0; 0; 279765#10000; 0; 0; 0; 0; 0; 0; 201237#100; 0; 0; 0; 0; 0; 0; 0; 0;
   (-175553)#10000000; 0; 0; 0; 0; 0; 0; 0; 0; 0; 0; 0; 0; 0; 0; 0; 0; 329699#100000000; 126659#100000000; 268402#1000000000; 0; 0; 0; 0; 0; 0; 0;
   117894#100000000; 148746#100000000; 106478#1000000000; 134743#1000000000; (-220939)#100000000; (-623523)#1000000000; 636539#1000000; 113621#10000; 0;
   (-393777)#1000000; 238687#100; 0; 661865#1000; (-121434)#1000000; 927608#100000; 0; 168478#1000000000; 124892#100000000; 171345#100000000; 0; 0; 0;
   0; 0; 0; 2];
  [157293#100000; (-6784)#10000; 6475#10000; 0; 0; 0; 0; 0; 0; (-762974)#10000000; (-360423)#1000000; 0; 0; 128358#1000; 0; 0; 0; 468038#10000; 0; 0; 0;
   0; 0; 0; 0; 0; (-167898)#1000000; 0; 0; 0; 0; 290994#10; 0; 0; 0; 0; 0; 0; 315706#10000; 0; 0; 0; 0; 0; 0; 0; 0; 0; 0; 0; 0; 0; 0; 0; 0; 0; 0; 0; 0;
   0; 0; 0; 0; 0; 0; 0; 0; 0; 0; 0; 0; 0; 0; 0; 0; 0; 0; 0; 0; 0; 0; 0; 0; 0; 0; 0; 0; 0; 0; 0; 0; 0; 0; 0; 0; 0; 0; 0; 0; 2];
  [860028#1000000; 377052#1000000; 0; 0; 0; 0; 0; 0; 0; (-11757)#10000; 0; 0; 0; 777757#100000000; 0; 0; 0; 101024#1000; 0; 0; 0; 0; 0; 0; 0; 0; 0; 0;
   0; 0; 0; 654251#1000; 0; 0; 0; 0; 0; 0; 0; 0; 0; 0; 0; 0; 0; 0; 0; 0; 0; 0; 0; 0; 0; 0; 0; 0; 0; 0; 0; 0; 0; 0; 0; 0; 0; 0; 0; 0; 0; 0; 0; 0; 0; 0;
   (-156959)#10000000; 191001#10000000; 315971#10000000; 100982#10000000; (-671565)#100000000; 257693#100000000; 138692#100000; 282132#1000000; 0; 0;
   381511#1000; 0; 0; 0; 0; 0; 0; 0; 0; 0; 0; 0; 0; 0; 0; 2];
  [106029#100000; (-525231)#10000000; 373034#1000000; 0; 0; 0; 0; 0; 0; 331072#10000000; (-388409)#1000000; 0; 0; (-165295)#1000; (-213801)#1000000;
   (-438916)#10000000; (-322716)#1000000; (-882393)#10000; 118458#1000000; 0; (-435863)#1000000; 0; 0; 0; 0; 0; (-119782)#1000000; 0; 0; 0; 0;
   262229#10000; 0; 0; 0; 0; 0; 0; (-537443)#10000; 0; 0; 0; 0; 0; 0; 0; 0; (-455788)#1000000; 0; 0; 0; 0; 0; 0; 0; 0; 0; 0; 0; 0; 0; 0; 0; 0;
   384009#10000000; 396733#10000000; 0; 0; 0; 0; 0; 0; 0; 0; 505494#10000000; 739617#10000000; 1922#100000; (-846151)#100000000; (-134244)#10000000;
   196338#10000000; 150421#100000; 188368#10000; 0; 0; (-513114)#10000; 0; 0; 0; 0; 0; 511923#10000000; 361225#10000000; 0; 0; 0; 0; 0; 0; 0; 2] ].
(* nrlmsise00_data.cpp:260 *)
Definition q_pd : list (list Q) :=
  [ [109979#100000; (-48806)#1000000; (-197501)#1000000; (-91028)#1000000; (-696558)#100000000; 242136#10000000; 391333#1000000; (-720068)#100000000;
   (-322718)#10000000; 141508#100000; 168194#1000000; 185282#10000000; 109384#1000000; (-724282)#100000; 0; 296377#1000000; (-49721)#1000000;
   104114#1000; (-861108)#10000000; (-729177)#1000000000; 148998#100000000000; 108629#100000000; 0; 0; 83109#1000000; 112818#1000000;
   (-575005)#10000000; (-129919)#10000000; (-178849)#10000000; (-286343)#100000000000; 0; (-151187)#1000; (-665902)#100000000; 0; (-202069)#100000000;
   0; 0; 432264#10000000; (-280444)#10000; (-326789)#100000000; 247461#100000000; 0; 0; 9821#100000; 122714#1000000; (-39645)#1000000; 0;
   (-276489)#100000000; 0; 187723#100000000; (-809813)#100000000; 434428#10000000000; (-770932)#100000000; 0; (-228894)#100000000; (-56907)#10000000;
   (-522193)#100000000; 600692#100000000; (-780434)#100; (-348336)#100000000; (-638362)#100000000; (-18219)#10000000; 0; (-758976)#10000;
   (-217875)#10000000; (-172524)#10000000; (-906287)#100000000; 0; 244725#10000000; 86604#1000000; 105712#1000000; 302543#10; 0; 0; 0; (-601364)#100;
   (-564668)#100000000; (-254157)#100000000; 0; 315611#1000; (-569158)#100000000; 0; 0; (-447216)#100000000; (-449523)#100000000; 464428#100000000; 0;
   0; 0; 0; 451236#10000000; 24652#1000000; 617794#100000000; 0; 0; (-362944)#1000000; (-480022)#10000000; (-75723)#1000; (-199656)#100000000; 0;
   (-51878)#10000000; (-17399)#1000000; (-903485)#100000000; 748465#100000000; 153267#10000000; 106296#10000000; 118655#10000000; 255569#100000000;
   16902#10000000; 351936#10000000; (-181242)#10000000; 0; (-100529)#1000000; (-510574)#100000000; 0; 210228#100000000; 0; 0; (-173255)#1000;
   507833#1000000; (-241408)#1000000; 875414#100000000; 277527#100000000; (-890353)#10000000000; (-525148)#100000; (-583899)#100000000;
   (-209122)#10000000; (-96353)#10000000; 977164#100000000; 407051#100000000; 253555#1000000000; (-552875)#100000; (-355993)#1000000;
   (-249231)#100000000; 0; 0; 286026#10000; 0; 342722#1000000000; 0; 0; 0; 0; 0; 0; 0; 0; 0; 0; 0];
  [102315#100000; (-15971)#100000; (-10663)#100000; (-177074)#10000000; (-442726)#100000000; 344803#10000000; 445613#10000000; (-333751)#10000000;
   (-573598)#10000000; 35036#100000; 633053#10000000; 216221#10000000; 542577#10000000; (-574193)#100000; 0; 190891#1000000; (-139194)#10000000;
   101102#1000; 816363#10000000; 133717#1000000000; 654403#100000000000; 310295#100000000; 0; 0; 538205#10000000; 12391#100000; (-139831)#10000000; 0;
   0; (-395915)#100000000000; 0; (-714651)#1000000; (-501027)#100000000; 0; (-324756)#100000000; 0; 0; 442173#10000000; (-131598)#10000;
   (-315626)#100000000; 124574#100000000; (-147626)#100000000; (-155461)#100000000; 640682#10000000; 134898#1000000; (-242415)#10000000; 0; 0; 0;
   613666#1000000000; (-540373)#100000000; 261635#10000000000; (-333012)#100000000; 0; (-308101)#100000000; (-242679)#100000000; (-336086)#100000000; 0;
   (-118979)#100; (-504738)#10000000; (-261547)#100000000; (-103132)#100000000; 191583#1000000000; (-838132)#10000; (-140517)#10000000;
   (-114167)#10000000; (-408012)#100000000; 173522#1000000000; (-139644)#10000000; (-664128)#10000000; (-685152)#10000000; (-134414)#10; 0; 0; 0;
   607916#1000; (-41222)#10000000; (-220996)#100000000; 0; 170277#100; (-463015)#100000000; 0; 0; (-22536)#10000000; (-296204)#100000000; 0; 0; 0; 0; 0;
   392786#10000000; 131186#10000000; (-178086)#100000000; 0; 0; (-390083)#1000000; (-284741)#10000000; (-7784)#100; (-102601)#100000000; 0;
   (-726485)#1000000000; (-542181)#100000000; (-559305)#100000000; 122825#10000000; 123868#10000000; 668835#100000000; (-103303)#10000000;
   (-951903)#100000000; 270021#1000000000; (-257084)#10000000; (-13243)#1000000; 0; (-381)#10000; (-31681)#10000000; 0; 0; 0; 0; 0; 0; 0;
   (-905762)#1000000000; (-21459)#10000000; (-117824)#100000000; 366732#100000; (-379729)#1000000000; (-613966)#100000000; (-509082)#100000000;
   (-196332)#100000000; (-30828)#10000000; (-975222)#1000000000; 403315#100000; (-25271)#100000; 0; 0; 0; 0; 0; 0; 0; 0; 0; 0; 0; 0; 0; 0; 0; 0; 0];
  [116112#100000; 0; 0; 333725#10000000; 0; 348637#10000000; (-544368)#100000000; 0; (-67394)#1000000; 174754#1000000; 0; 0; 0; 174712#1000; 0;
   126733#1000000; 0; 103154#1000; 552075#10000000; 0; 0; 813525#1000000000; 0; 0; 866784#10000000; 158727#1000000; 0; 0; 0; 0; 0; (-250482)#10000; 0;
   0; 0; 0; 0; 0; 0; (-248894)#100000000; 616053#1000000000; (-579716)#1000000000; 295482#100000000; 847001#10000000; 170147#1000000; 0; 0; 0; 0; 0; 0;
   247425#10000000000; 0; 0; 0; 0; 0; 0; 0; 0; 0; 0; 0; 0; 0; 0; 0; 0; 0; 0; 0; 0; 0; 0; 0; 0; 0; 0; 0; 0; 0; 0; 0; 0; 0; 0; 0; 0; 0; 0; 0; 0; 0; 0; 0;
   0; 0; 0; 0; 0; 0; 0; 0; 0; 0; 0; 0; 0; 0; 0; 0; 0; 0; 0; 0; 0; 0; 0; 0; 0; 0; 0; 0; 0; 0; 0; 0; 0; 0; 0; 0; 0; 0; 0; 0; 0; 0; 0; 0; 0; 0; 0; 0; 0; 0;
   0; 0; 0; 0; 0];
  [944846#1000000; 0; 0; (-308617)#10000000; 0; (-244019)#10000000; 648607#100000000; 0; 308181#10000000; 459392#10000000; 0; 0; 0; 174712#1000; 0;
   21326#1000000; 0; (-356958)#1000; 0; 182278#1000000000; 0; 307472#1000000000; 0; 0; 866784#10000000; 158727#1000000; 0; 0; 0; 0; 0; 0;
   383054#100000000; 0; 0; (-193065)#100000000; (-14509)#10000000; 0; 0; 0; 0; (-123493)#100000000; 136736#100000000; 847001#10000000; 170147#1000000;
   371469#100000000; 0; 0; 0; 0; 51025#10000000; 247425#10000000000; 0; 0; 0; 0; 0; 0; 0; 0; 0; 0; 0; 0; 0; 0; 0; 0; 0; 0; 0; 0; 0; 0; 0; 0; 0; 0; 0; 0;
   0; 0; 0; 0; 0; 0; 0; 0; 0; 0; 0; 0; 0; 0; 0; 0; 368756#100000000; 0; 0; 0; 0; 0; 0; 0; 0; 0; 0; 0; 0; 0; 0; 0; 0; 0; 0; 0; 0; 0; 0; 0; 0; 0; 0; 0; 0;
   0; 0; 0; 0; 0; 0; 0; 0; 0; 0; 0; 0; 0; 0; 0; 0; 0; 0; 0; 0; 0; 0; 0; 0; 0];
  [13558#10000; 144816#1000000; 0; 607767#10000000; 0; 294777#10000000; 7469#100000; 0; (-923822)#10000000; 857342#10000000; 0; 0; 0; 238636#10000; 0;
   771653#10000000; 0; 818751#10000; 187736#10000000; 0; 0; 149667#10000000; 0; 0; 866784#10000000; 158727#1000000; 0; 0; 0; 0; 0; (-367874)#1000;
   548158#100000000; 0; 0; 0; 0; 0; 0; 0; 0; 0; 0; 847001#10000000; 170147#1000000; 122631#10000000; 0; 0; 0; 0; 817187#100000000; 371617#10000000000;
   0; 0; 0; 0; 0; 0; 0; 0; 0; 0; 0; 0; (-210826)#100000000; (-31364)#10000000; 0; 0; 0; 0; 0; 0; 0; 0; 0; 0; 0; 0; 0; 0; 0; 0; 0; 0; 0; 0; 0; 0; 0; 0;
   (-735742)#10000000; (-500266)#10000000; 0; 0; 0; 0; 194965#10000000; 0; 0; 0; 0; 0; 0; 0; 0; 0; 0; 0; 0; 0; 0; 0; 0; 0; 0; 0; 0; 0; 0; 0; 0; 0; 0; 0;
   0; 0; 0; 0; 0; 0; 0; 0; 0; 0; 0; 0; 0; 0; 0; 0; 0; 0; 0; 0; 0; 0; 0; 0; 0; 0];
  [104761#100000; 200165#1000000; 237697#1000000; 368552#10000000; 0; 357202#10000000; (-214075)#1000000; 0; (-108018)#1000000; (-373981)#1000000; 0;
   310022#10000000; (-116305)#100000000; (-207596)#10000; 0; 864502#10000000; 0; 974908#10000; 516707#10000000; 0; 0; 0; 0; 0; 866784#10000000;
   158727#1000000; 0; 0; 0; 0; 0; 346193#1000; 134297#10000000; 0; 0; 0; 0; 0; 0; (-348509)#100000000; (-154689)#1000000000; 0; 0; 847001#10000000;
   170147#1000000; 147753#10000000; 0; 0; 0; 0; 18932#1000000; 368181#10000000000; 13257#1000000; 0; 0; 359719#100000000; 744328#100000000;
   (-100023)#100000000; (-650528)#100; 0; 103485#10000000; (-100983)#100000000; (-406916)#100000000; (-660864)#10000; (-171533)#10000000;
   110605#10000000; 1203#100000; (-520034)#100000000; 0; 0; 0; 0; 0; 0; 0; (-262769)#100; 713755#100000000; 417999#100000000; 0; 12591; 0; 0; 0;
   (-223595)#100000000; 460217#100000000; 571794#100000000; 0; 0; 0; 0; (-318353)#10000000; (-235526)#10000000; (-136189)#10000000; 0; 0; 0;
   203522#10000000; (-667837)#10000; (-109724)#100000000; 0; (-138821)#10000000; 160468#10000000; 0; 0; 0; 0; 0; 0; 0; 151574#10000000;
   (-54447)#100000000; 0; 728224#10000000; 659413#10000000; 0; (-515692)#100000000; 0; 0; (-370367)#100; 0; 0; 136131#10000000; 538153#100000000; 0;
   476285#100000; (-175677)#10000000; 226301#10000000; 0; 176631#10000000; 477162#100000000; 0; 539354#100000; 0; (-75171)#10000000; 0; 0;
   (-882736)#10000; 0; 0; 0; 0; 0; 0; 0; 0; 0; 0; 0; 0; 0];
  [126376#100000; (-214304)#1000000; (-149984)#1000000; 230404#1000000; 298237#10000000; 268673#10000000; 296228#1000000; 2219#100000;
   (-207655)#10000000; 452506#1000000; 120105#1000000; 32442#1000000; 424816#10000000; (-914313)#100000; 0; 247178#10000000; (-288229)#10000000;
   812805#10000; 51038#1000000; (-580611)#100000000; 251236#10000000000; (-124083)#10000000; 0; 0; 866784#10000000; 158727#1000000; (-34819)#1000000; 0;
   0; 289885#10000000000; 0; 153595#1000; (-168604)#10000000; 0; 101015#10000000; 0; 0; 0; 0; 284552#1000000000; (-122181)#100000000; 0; 0;
   847001#10000000; 170147#1000000; (-104927)#10000000; 0; 0; 0; (-591313)#100000000; (-230501)#10000000; 314758#10000000000; 0; 0; 126956#10000000;
   835489#100000000; 310513#1000000000; 0; 342119#100; (-245017)#100000000; (-427154)#1000000000; 545152#1000000000; 189896#100000000; 289121#10000;
   (-649973)#100000000; (-193855)#10000000; (-148492)#10000000; 0; (-510576)#10000000; 787306#10000000; 951981#10000000; (-149422)#10; 0; 0; 0;
   265503#1000; 0; 0; 0; 0; 0; 0; 0; 63711#10000000; 324789#1000000000; 0; 0; 0; 0; 0; 614274#10000000; 100376#10000000; (-841083)#1000000000; 0; 0; 0;
   (-127099)#10000000; 0; 0; 0; (-394077)#100000000; (-128601)#10000000; (-797616)#100000000; 0; 0; 0; 0; 0; 0; 0; 0; 0; 0; 0; 0; 0; 0; 0; 0; 0; 0;
   (-671465)#100000000; (-169799)#100000000; 193772#100000000; 38114#10000; (-77929)#10000000; (-182589)#10000000; (-12586)#1000000; (-104311)#10000000;
   (-302465)#100000000; 243063#100000000; 363237#100000; 0; 0; 0; 0; 0; 0; 0; 0; 0; 0; 0; 0; 0; 0; 0; 0; 0; 0];
  [709557#10000; (-32674)#100000; 0; (-516829)#1000000; (-171664)#100000000; 90931#1000000; (-6715)#10000; (-147771)#1000000; (-927471)#10000000;
   (-230862)#1000000; (-15641)#100000; 134455#10000000; (-119717)#1000000; 252151#100000; 0; (-241582)#1000000; 592939#10000000; 439756#100000;
   91528#1000000; 441292#100000000; 0; 866807#100000000; 0; 0; 866784#10000000; 158727#1000000; 974701#10000000; 0; 0; 0; 0; 670217#10000;
   (-13166)#10000000; 0; (-165317)#10000000; 0; 0; 850247#10000000; 277428#10000; 498658#100000000; 615115#100000000; 950156#100000000;
   (-212723)#10000000; 847001#10000000; 170147#1000000; (-238645)#10000000; 0; 0; 0; 13738#10000000; (-841918)#100000000; 280145#10000000000;
   712383#100000000; 0; (-166209)#10000000; 103533#1000000000; (-168898)#10000000; 0; 364526#100; 0; 654077#100000000; 36913#100000000;
   994419#1000000000; 842803#10000; (-116124)#10000000; (-774414)#100000000; (-168844)#100000000; 142809#100000000; (-192955)#100000000; 117225#1000000;
   (-241512)#10000000; 150521#10; 0; 0; 0; 160261#100; 0; 0; 0; 0; 0; 0; 0; (-354403)#1000000000; (-18727)#1000000; 0; 0; 0; 0; 0; 276439#10000000;
   643207#100000000; (-3543)#100000; 0; 0; 0; (-280221)#10000000; 811228#10000; (-675255)#1000000000; 0; (-105162)#10000000; (-348292)#100000000;
   (-697321)#100000000; 0; 0; 0; 0; 0; 0; 0; 0; 0; 0; 0; 0; 0; 0; 0; 0; 0; 0; (-145546)#100000000; (-13197)#1000000; (-357751)#100000000;
   (-109021)#100000; (-150181)#10000000; (-712841)#100000000; (-66459)#10000000; (-35261)#10000000; (-187773)#10000000; (-222432)#100000000;
   (-393895)#1000000; 0; 0; 0; 0; 0; 0; 0; 0; 0; 0; 0; 0; 0; 0; 0; 0; 0; 0];
  [60405#1000000; 157034#100000; 299387#10000000; 0; 0; 0; 0; 0; 0; (-151018)#100000; 0; 0; 0; (-86165)#10000; 126454#10000000; 0; 0; 0; 0; 0; 0;
   550878#100000000; 0; 0; 866784#10000000; 158727#1000000; 0; 0; 0; 0; 0; 0; 623881#10000000; 0; 0; 0; 0; 0; 0; 0; 0; 0; 0; 847001#10000000;
   170147#1000000; (-945934)#10000000; 0; 0; 0; 0; 0; 0; 0; 0; 0; 0; 0; 0; 0; 0; 0; 0; 0; 0; 0; 0; 0; 0; 0; 0; 0; 0; 0; 0; 0; 0; 0; 0; 0; 0; 0; 0; 0; 0;
   0; 0; 0; 0; 0; 0; 0; 0; 0; 0; 0; 0; 0; 0; 0; 0; 0; 0; 0; 0; 0; 0; 0; 0; 0; 0; 0; 0; 0; 0; 0; 0; 0; 0; 0; 0; 0; 0; 0; 0; 0; 0; 0; 0; 0; 0; 0; 0; 0; 0;
   0; 0; 0; 0; 0; 0; 0; 0; 0; 0; 0; 0; 0; 0; 0; 0] ].
(* nrlmsise00_data.cpp:541 *)
Definition q_ptl : list (list Q) :=
  [ [100858#100000; 456011#10000000; (-222972)#10000000; (-544388)#10000000; 523136#1000000000; (-188849)#10000000; 523707#10000000; (-943646)#100000000;
   631707#100000000; (-78046)#1000000; (-48843)#1000000; 0; 0; (-76025)#10000; 0; (-144635)#10000000; (-176843)#10000000; (-121517)#1000;
   285647#10000000; 0; 0; 631792#1000000000; 0; 577197#100000000; 866784#10000000; 158727#1000000; 0; 0; 0; 0; 0; (-890272)#100; 330611#100000000;
   302172#100000000; 0; (-213673)#100000000; (-32091)#100000000; 0; 0; 276034#100000000; 282487#100000000; (-297592)#1000000000; (-421534)#100000000;
   847001#10000000; 170147#1000000; 896456#100000000; 0; (-108596)#10000000; 0; 0; 557917#100000000; 0; 0; 0; 0; 0; 0; 0; 0; 0; 0; 0; 0; 0; 0; 0; 0; 0;
   0; 0; 0; 0; 0; 0; 0; 0; 0; 0; 0; 0; 0; 0; 0; 0; 0; 0; 0; 0; 0; 0; 0; 0; 0; 0; 0; 0; 965405#100000000; 0; 0; 2];
  [939664#1000000; 856514#10000000; (-679989)#100000000; 265929#10000000; (-474283)#100000000; 121855#10000000; (-214905)#10000000; 649651#100000000;
   (-205477)#10000000; (-424952)#10000000; 0; 0; 0; 119148#10000; 0; 118777#10000000; (-72823)#1000000; (-815965)#10000; 173887#10000000; 0; 0; 0;
   (-144691)#10000000; 280259#1000000000; 866784#10000000; 158727#1000000; 0; 0; 0; 0; 0; 216584#1000; 318713#100000000; 737479#100000000; 0;
   (-255018)#100000000; (-392806)#100000000; 0; 0; (-289757)#100000000; (-133549)#100000000; 102661#100000000; 353775#1000000000; 847001#10000000;
   170147#1000000; (-917497)#100000000; 0; 0; 0; 0; 356082#100000000; 0; 0; 0; 0; 0; 0; 0; 0; 0; 0; 0; 0; 0; 0; 0; 0; 0; 0; 0; 0; 0; 0; 0; 0; 0; 0; 0;
   0; 0; 0; 0; 0; 0; 0; 0; 0; 0; 0; 0; 0; 0; 0; 0; 0; 0; (-100902)#10000000; 0; 0; 2];
  [985982#1000000; (-455435)#10000000; 121106#10000000; 204127#10000000; (-240836)#100000000; 111383#10000000; (-451926)#10000000; 135074#10000000;
   (-654139)#100000000; 115275#1000000; 128247#1000000; 0; 0; (-530705)#100000; 0; (-379332)#10000000; (-624741)#10000000; 771062#1000000;
   296315#10000000; 0; 0; 0; 681051#100000000; (-434767)#100000000; 866784#10000000; 158727#1000000; 0; 0; 0; 0; 0; 107003#10000; (-276907)#100000000;
   432474#1000000000; 0; 131497#100000000; (-647517)#1000000000; 0; (-220621)#10000; (-110804)#100000000; (-809338)#1000000000; 418184#1000000000;
   42965#10000000; 847001#10000000; 170147#1000000; 0; 0; 0; 0; 0; (-404337)#100000000; 0; 0; 0; 0; 0; 0; 0; 0; 0; 0; 0; 0; 0; (-95255)#100000000;
   856253#1000000000; 433114#1000000000; 0; 0; 0; 0; 0; 0; 0; 121223#100000000; 238694#1000000000; 915245#1000000000; 128385#100000000;
   867668#1000000000; (-561425)#100000000000; 104445#100000; 341112#10000; 0; (-840704)#1000000; (-239639)#1000; 706668#1000000; (-205873)#10000;
   (-363696)#1000000; 239245#10000; 0; (-106657)#100000000; (-767292)#1000000000; 154534#1000000000; 0; 0; 0; 0; 0; 0; 2];
  [10032#10000; 383501#10000000; (-238983)#100000000; 28395#10000000; 420956#100000000; 586619#1000000000; 219054#10000000; (-100946)#10000000;
   (-350259)#100000000; 417392#10000000; (-844404)#100000000; 0; 0; 496949#100000; 0; (-706478)#100000000; (-146494)#10000000; 313258#10000;
   (-186493)#100000000; 0; (-167499)#10000000; 0; 0; 512686#1000000000; 866784#10000000; 158727#1000000; (-464167)#100000000; 0; 0; 0; 437353#100000000;
   (-199069)#1000; 0; (-534884)#100000000; 0; 162458#100000000; 293016#100000000; 267926#100000000; 590449#1000; 0; 0; (-117266)#100000000;
   (-35889)#100000000; 847001#10000000; 170147#1000000; 0; 0; 138673#10000000; 0; 0; 0; 0; 0; 0; 0; 0; 0; 0; 0; 0; 0; 0; 0; 0; 160571#100000000;
   628078#1000000000; 505469#10000000000; 0; 0; 0; 0; 0; 0; 0; (-157829)#100000000; (-400855)#1000000000; 504077#10000000000; (-139001)#100000000;
   (-233406)#100000000; (-481197)#1000000000; 146758#100000; 620332#100000; 0; 366476#1000000; (-61976)#1000; 309198#1000000; (-198999)#10000; 0;
   (-329933)#1000; 0; (-11008)#10000000; (-93931)#1000000000; 139638#1000000000; 0; 0; 0; 0; 0; 0; 2] ].
(* nrlmsise00_data.cpp:633 *)
Definition q_pdl : list (list Q) :=
  [ [10993#10000; 390631#100000; 307165#100000; 986161#1000000; 163536#10000; 46383#10000; 1; 0; 0; 0; 0; 0; 0; 0; 0; 0; 0; 0; 0; 0; 0; 0; 12884#10000;
   310302#10000000; 118339#1000000];
  [1; 7#10; 11502#10000; 344689#100000; 12884#10000; 1; 108738#100000; 122947#100000; 110016#100000; 734129#1000000; 115241#100000; 222784#100000;
   795046#1000000; 401612#100000; 447749#100000; 123435#1000; (-760535)#10000000; 168986#100000000000; 744294#1000000; 103604#100000; 172783#1000;
   11502#10000; 344689#100000; (-74623)#100000; 949154#1000000] ].
(* nrlmsise00_data.cpp:647 *)
Definition q_pt : list Q :=
  [986573#1000000; 162228#10000000; 15527#1000000; (-104323)#1000000; (-375801)#100000000; (-118538)#100000000; (-124043)#1000000; 45682#10000000;
   876018#100000000; (-136235)#1000000; (-352427)#10000000; 884181#100000000; (-592127)#100000000; (-86165)#10000; 0; 128492#10000000; 0; 130096#1000;
   104567#10000000; 165686#100000000; (-553887)#100000000000; 29781#10000000; 0; 513122#100000000; 866784#10000000; 158727#1000000; 0; 0; 0;
   (-727026)#100000000000; 0; 674494#100000; 493933#100000000; 221656#100000000; 250802#100000000; 0; 0; (-208841)#10000000; (-179873)#100000;
   145103#100000000; 281769#1000000000; (-144703)#100000000; (-516394)#10000000000; 847001#10000000; 170147#1000000; 572562#100000000;
   507493#10000000000; 436148#100000000; 117863#1000000000; 474364#100000000; 661278#100000000; 434292#10000000000; 144373#100000000; 24147#1000000000;
   284426#100000000; 85656#100000000; 204028#100000000; 0; (-315994)#100; (-246423)#100000000; 113843#100000000; 420512#1000000000; 0; (-977214)#10000;
   677794#100000000; 527499#100000000; 114936#100000000; 0; (-661311)#100000000; (-184255)#10000000; (-196259)#10000000; 298618#10; 0; 0; 0;
   644574#1000; 884668#1000000000; 505066#1000000000; 0; 402881#100; (-189503)#100000000; 0; 0; 821407#1000000000; 20678#10000000; 0; 0; 0; 0; 0;
   (-12041)#1000000; (-363963)#100000000; 99207#1000000000; (-115284)#1000000000; (-633059)#10000000000; (-605545)#1000000; 834218#100000000;
   (-913036)#10000; 371042#1000000000; 0; 419#1000000; 270928#100000000; 331507#100000000; (-444508)#100000000; (-496334)#100000000;
   (-160449)#100000000; 395119#100000000; 248924#100000000; 509815#1000000000; 405302#100000000; 224076#100000000; 0; 684256#100000000;
   466354#1000000000; 0; (-368328)#1000000000; 0; 0; (-14687)#100; 0; 0; 109501#100000000; 465156#1000000000; 562583#1000000000; 321596#100000;
   643168#1000000000; 31486#10000000; 340738#100000000; 178481#100000000; 962532#1000000000; 558171#1000000000; 343731#100000; (-233195)#1000000;
   510289#1000000000; 0; 0; (-925347)#10; 0; (-199639)#100000000; 0; 0; 0; 0; 0; 0; 0; 0; 0; 0; 0].
(* nrlmsise00_data.cpp:680 *)
Definition q_ps : list Q :=
  [956827#1000000; 620637#10000000; 318433#10000000; 0; 0; 3949#100000; 0; 0; (-924882)#100000000; (-794023)#100000000; 0; 0; 0; 174712#1000; 0; 0; 0;
   0; 0; 0; 0; 274677#100000000; 0; 154951#10000000; 866784#10000000; 158727#1000000; 0; 0; 0; 0; 0; 0; 0; (-699007)#1000000000; 0; 0; 0; 0; 0; 0; 0;
   124362#10000000; (-528756)#100000000; 847001#10000000; 170147#1000000; 0; 0; 0; 0; 0; 0; 247425#10000000000; 0; 0; 0; 0; 0; 0; 0; 0; 0; 0; 0; 0; 0;
   0; 0; 0; 0; 0; 0; 0; 0; 0; 0; 0; 0; 0; 0; 0; 0; 0; 0; 0; 0; 0; 0; 0; 0; 0; 0; 0; 0; 0; 0; 0; 0; 0; 0; 0; 0; 0; 0; 0; 0; 0; 0; 0; 0; 0; 0; 0; 0; 0; 0;
   0; 0; 0; 0; 0; 0; 0; 0; 0; 0; 0; 0; 0; 0; 0; 0; 0; 0; 0; 0; 0; 0; 0; 0; 0; 0; 0; 0; 0; 0; 0; 0; 0; 0; 0].
Definition real1 (l : list Q) (k : nat) : R := Q2R (nth k l 0).
Definition real2 (l : list (list Q)) (j k : nat) : R := Q2R (nth k (nth j l []) 0).
Definition code_tables : tables := Tables (real1 q_ptm) (real2 q_pdm) (real1 q_pavgm) (real2 q_pma) (real2 q_pd) (real2 q_ptl) (real2 q_pdl) (real1 q_pt) (real1 q_ps).
