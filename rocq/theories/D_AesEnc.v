(** The netlist /repo/cipher/circuit_files/aes128_with_ks.txt (identical to the string in
    aes128_with_ks_data.cpp), one constructor per line in file order: GA = AND, GX = XOR,
    GI = INV.  Generated mechanically from the file. *)
From Coq Require Import List NArith.
From Verif Require Import M_Bristol.
Import ListNotations.
Local Open Scope N_scope.

(** aes128_with_ks.txt:4-253 *)
Definition aes_enc_file_g0 : list gate := [
GX 1408 103 1791; GX 1409 102 1790; GX 1410 101 1789; GX 1411 100 1788; GX 1412 99 1787; GX 1413 98 1786;
GX 1414 97 1785; GX 1415 96 1784; GX 1416 111 1783; GX 1417 110 1782; GX 1418 109 1781; GX 1419 108 1780;
GX 1420 107 1779; GX 1421 106 1778; GX 1422 105 1777; GX 1423 104 1776; GX 1424 119 1775; GX 1425 118 1774;
GX 1426 117 1773; GX 1427 116 1772; GX 1428 115 1771; GX 1429 114 1770; GX 1430 113 1769; GX 1431 112 1768;
GX 1432 127 1767; GX 1433 126 1766; GX 1434 125 1765; GX 1435 124 1764; GX 1436 123 1763; GX 1437 122 1762;
GX 1438 121 1761; GX 1439 120 1760; GX 1440 71 1759; GX 1441 70 1758; GX 1442 69 1757; GX 1443 68 1756;
GX 1444 67 1755; GX 1445 66 1754; GX 1446 65 1753; GX 1447 64 1752; GX 1448 79 1751; GX 1449 78 1750;
GX 1450 77 1749; GX 1451 76 1748; GX 1452 75 1747; GX 1453 74 1746; GX 1454 73 1745; GX 1455 72 1744;
GX 1456 87 1743; GX 1457 86 1742; GX 1458 85 1741; GX 1459 84 1740; GX 1460 83 1739; GX 1461 82 1738;
GX 1462 81 1737; GX 1463 80 1736; GX 1464 95 1735; GX 1465 94 1734; GX 1466 93 1733; GX 1467 92 1732;
GX 1468 91 1731; GX 1469 90 1730; GX 1470 89 1729; GX 1471 88 1728; GX 1472 39 1727; GX 1473 38 1726;
GX 1474 37 1725; GX 1475 36 1724; GX 1476 35 1723; GX 1477 34 1722; GX 1478 33 1721; GX 1479 32 1720;
GX 1480 47 1719; GX 1481 46 1718; GX 1482 45 1717; GX 1483 44 1716; GX 1484 43 1715; GX 1485 42 1714;
GX 1486 41 1713; GX 1487 40 1712; GX 1488 55 1711; GX 1489 54 1710; GX 1490 53 1709; GX 1491 52 1708;
GX 1492 51 1707; GX 1493 50 1706; GX 1494 49 1705; GX 1495 48 1704; GX 1496 63 1703; GX 1497 62 1702;
GX 1498 61 1701; GX 1499 60 1700; GX 1500 59 1699; GX 1501 58 1698; GX 1502 57 1697; GX 1503 56 1696;
GX 1504 7 1695; GX 1505 6 1694; GX 1506 5 1693; GX 1507 4 1692; GX 1508 3 1691; GX 1509 2 1690;
GX 1510 1 1689; GX 1511 0 1688; GX 1512 15 1687; GX 1513 14 1686; GX 1514 13 1685; GX 1515 12 1684;
GX 1516 11 1683; GX 1517 10 1682; GX 1518 9 1681; GX 1519 8 1680; GX 1520 23 1679; GX 1521 22 1678;
GX 1522 21 1677; GX 1523 20 1676; GX 1524 19 1675; GX 1525 18 1674; GX 1526 17 1673; GX 1527 16 1672;
GX 1528 31 1671; GX 1529 30 1670; GX 1530 29 1669; GX 1531 28 1668; GX 1532 27 1667; GX 1533 26 1666;
GX 1534 25 1665; GX 1535 24 1664; GX 1664 1670 12343; GX 1664 1669 12341; GX 1670 1668 19439; GX 1666 1664 19440;
GX 1669 19439 19441; GX 1665 19441 12331; GX 1666 19441 12328; GX 1667 1665 19442; GX 1671 1665 19448; GX 19448 19441 12330;
GX 1667 1664 12342; GX 1670 1669 19460; GX 12342 19460 12338; GX 1669 1667 12344; GX 19440 12344 12329; GX 1666 19448 12340;
GX 1670 12340 12336; GX 19440 19448 12337; GX 19460 12337 12335; GX 19439 12342 12334; GX 1671 12334 12333; GX 1668 1669 19423;
GX 19442 19440 19408; GX 19439 19408 12332; GX 19442 1666 19407; GX 1671 19407 12339; GA 12338 12334 12327; GX 12327 19442 19447;
GA 12335 12333 12326; GA 12339 1671 12325; GA 12343 12328 12324; GX 12324 19440 19446; GA 12336 12340 12323; GA 12337 12330 12322;
GA 12342 12331 12321; GX 12321 19441 19443; GX 19447 19443 19453; GA 12344 12329 12320; GX 12320 12326 19452; GX 1664 19452 19467;
GX 19467 19453 12318; GX 12320 12321 19422; GX 19422 19423 19474; GX 19474 19446 19471; GX 12323 19471 12317; GA 12341 12332 12319;
GX 12319 12322 19445; GX 12319 12325 19451; GX 12320 19445 19465; GX 1666 19451 19466; GX 19446 19445 19431; GX 19443 19431 12316;
GX 19452 19451 19430; GX 19440 19430 12315; GX 12323 19465 19421; GX 1670 19421 12310; GA 12318 12317 12314; GX 12314 12316 12313;
GX 12314 19466 19420; GX 19453 19420 12309; GA 12315 12313 12312; GX 12312 19453 19468; GX 19466 19468 12311; GX 12324 12312 19415;
GX 19447 19415 19411; GX 1664 19411 19414; GX 1666 19411 19410; GA 12309 12310 12308; GX 12308 12316 12307; GX 12314 12308 12306;
GX 12308 19465 19419; GX 12308 12325 19418; GX 19418 12322 19413; GX 19413 19414 12299; GA 12316 12306 12305; GX 12305 12313 12303;
GX 12305 12323 19450; GX 19450 19471 12297; GX 1670 19450 19458; GX 19458 19419 12304; GA 12311 12303 12302; GX 12302 12315 12301;
GX 12302 12326 19417; GX 19458 19417 19409; GX 19440 19409 19416; GX 19413 19416 12300; GX 12302 19468 19412; GX 19467 19412 12298;
GX 19409 19410 12296; GA 12297 12334 12295; GA 12304 12333 12294; GA 12307 1671 12293; GA 12298 12328 12292; GX 12292 12295 19456;
GI 19456 19427; GA 12301 12340 12291; GA 12311 12330 12290; GX 12290 12293 19463; GX 19463 19427 19438; GA 12299 12331 12289;
GX 12289 12295 19461; GX 12289 12292 19432; GA 12296 12329 12288; GX 12288 12291 19455; GX 12288 19461 19434; GA 12300 12332 12287;
GA 12297 12338 12286; GA 12304 12335 12285; GA 12307 12339 12284; GA 12298 12343 12283; GX 12283 12287 19457; GX 19455 19457 19469;
GX 12290 19469 19435; GX 19461 19457 19429; GA 12301 12336 12282; GA 12311 12337 12281; GX 12281 12293 19462; GX 12284 19462 19425;
GA 12299 12342 12280; GA 12296 12344 12279; GX 12279 12280 19444; GX 12285 19444 19449].
(** aes128_with_ks.txt:254-503 *)
Definition aes_enc_file_g1 : list gate := [
GX 12286 19449 19454; GX 12294 19454 19459; GX 12282 19444 19464; GX 12291 19459 19470; GX 19456 19470 28543; GX 19463 19470 28542;
GX 12283 19464 19437; GX 19437 19438 19436; GX 19464 19435 12347; GX 19459 19434 12346; GX 19455 19454 19433; GX 19432 19433 28546;
GX 19427 19449 19426; GX 19425 19426 19424; GI 19424 19473; GX 19473 19469 28541; GA 12300 12341 12278; GX 12278 12280 19428;
GX 19428 19429 19472; GX 19472 19462 12345; GI 12347 28540; GI 12346 28545; GI 12345 28544; GX 1672 1678 12413;
GX 1672 1677 12411; GX 1678 1676 19371; GX 1674 1672 19372; GX 1677 19371 19373; GX 1673 19373 12401; GX 1674 19373 12398;
GX 1675 1673 19374; GX 1679 1673 19380; GX 19380 19373 12400; GX 1675 1672 12412; GX 1678 1677 19392; GX 12412 19392 12408;
GX 1677 1675 12414; GX 19372 12414 12399; GX 1674 19380 12410; GX 1678 12410 12406; GX 19372 19380 12407; GX 19392 12407 12405;
GX 19371 12412 12404; GX 1679 12404 12403; GX 1676 1677 19355; GX 19374 19372 19340; GX 19371 19340 12402; GX 19374 1674 19339;
GX 1679 19339 12409; GA 12408 12404 12397; GX 12397 19374 19379; GA 12405 12403 12396; GA 12409 1679 12395; GA 12413 12398 12394;
GX 12394 19372 19378; GA 12406 12410 12393; GA 12407 12400 12392; GA 12412 12401 12391; GX 12391 19373 19375; GX 19379 19375 19385;
GA 12414 12399 12390; GX 12390 12396 19384; GX 1672 19384 19399; GX 19399 19385 12388; GX 12390 12391 19354; GX 19354 19355 19406;
GX 19406 19378 19403; GX 12393 19403 12387; GA 12411 12402 12389; GX 12389 12392 19377; GX 12389 12395 19383; GX 12390 19377 19397;
GX 1674 19383 19398; GX 19378 19377 19363; GX 19375 19363 12386; GX 19384 19383 19362; GX 19372 19362 12385; GX 12393 19397 19353;
GX 1678 19353 12380; GA 12388 12387 12384; GX 12384 12386 12383; GX 12384 19398 19352; GX 19385 19352 12379; GA 12385 12383 12382;
GX 12382 19385 19400; GX 19398 19400 12381; GX 12394 12382 19347; GX 19379 19347 19343; GX 1672 19343 19346; GX 1674 19343 19342;
GA 12379 12380 12378; GX 12378 12386 12377; GX 12384 12378 12376; GX 12378 19397 19351; GX 12378 12395 19350; GX 19350 12392 19345;
GX 19345 19346 12369; GA 12386 12376 12375; GX 12375 12383 12373; GX 12375 12393 19382; GX 19382 19403 12367; GX 1678 19382 19390;
GX 19390 19351 12374; GA 12381 12373 12372; GX 12372 12385 12371; GX 12372 12396 19349; GX 19390 19349 19341; GX 19372 19341 19348;
GX 19345 19348 12370; GX 12372 19400 19344; GX 19399 19344 12368; GX 19341 19342 12366; GA 12367 12404 12365; GA 12374 12403 12364;
GA 12377 1679 12363; GA 12368 12398 12362; GX 12362 12365 19388; GI 19388 19359; GA 12371 12410 12361; GA 12381 12400 12360;
GX 12360 12363 19395; GX 19395 19359 19370; GA 12369 12401 12359; GX 12359 12365 19393; GX 12359 12362 19364; GA 12366 12399 12358;
GX 12358 12361 19387; GX 12358 19393 19366; GA 12370 12402 12357; GA 12367 12408 12356; GA 12374 12405 12355; GA 12377 12409 12354;
GA 12368 12413 12353; GX 12353 12357 19389; GX 19387 19389 19401; GX 12360 19401 19367; GX 19393 19389 19361; GA 12371 12406 12352;
GA 12381 12407 12351; GX 12351 12363 19394; GX 12354 19394 19357; GA 12369 12412 12350; GA 12366 12414 12349; GX 12349 12350 19376;
GX 12355 19376 19381; GX 12356 19381 19386; GX 12364 19386 19391; GX 12352 19376 19396; GX 12361 19391 19402; GX 19388 19402 28452;
GX 19395 19402 28451; GX 12353 19396 19369; GX 19369 19370 19368; GX 19396 19367 12417; GX 19391 19366 12416; GX 19387 19386 19365;
GX 19364 19365 28455; GX 19359 19381 19358; GX 19357 19358 19356; GI 19356 19405; GX 19405 19401 28450; GA 12370 12411 12348;
GX 12348 12350 19360; GX 19360 19361 19404; GX 19404 19394 12415; GI 12417 28449; GI 12416 28454; GI 12415 28453;
GX 1680 1686 12483; GX 1680 1685 12481; GX 1686 1684 19303; GX 1682 1680 19304; GX 1685 19303 19305; GX 1681 19305 12471;
GX 1682 19305 12468; GX 1683 1681 19306; GX 1687 1681 19312; GX 19312 19305 12470; GX 1683 1680 12482; GX 1686 1685 19324;
GX 12482 19324 12478; GX 1685 1683 12484; GX 19304 12484 12469; GX 1682 19312 12480; GX 1686 12480 12476; GX 19304 19312 12477;
GX 19324 12477 12475; GX 19303 12482 12474; GX 1687 12474 12473; GX 1684 1685 19287; GX 19306 19304 19272; GX 19303 19272 12472;
GX 19306 1682 19271; GX 1687 19271 12479; GA 12478 12474 12467; GX 12467 19306 19311; GA 12475 12473 12466; GA 12479 1687 12465;
GA 12483 12468 12464; GX 12464 19304 19310; GA 12476 12480 12463; GA 12477 12470 12462; GA 12482 12471 12461; GX 12461 19305 19307;
GX 19311 19307 19317; GA 12484 12469 12460; GX 12460 12466 19316; GX 1680 19316 19331; GX 19331 19317 12458; GX 12460 12461 19286;
GX 19286 19287 19338; GX 19338 19310 19335; GX 12463 19335 12457; GA 12481 12472 12459; GX 12459 12462 19309; GX 12459 12465 19315;
GX 12460 19309 19329; GX 1682 19315 19330; GX 19310 19309 19295; GX 19307 19295 12456; GX 19316 19315 19294; GX 19304 19294 12455;
GX 12463 19329 19285; GX 1686 19285 12450; GA 12458 12457 12454; GX 12454 12456 12453; GX 12454 19330 19284; GX 19317 19284 12449;
GA 12455 12453 12452; GX 12452 19317 19332; GX 19330 19332 12451; GX 12464 12452 19279; GX 19311 19279 19275; GX 1680 19275 19278;
GX 1682 19275 19274; GA 12449 12450 12448; GX 12448 12456 12447; GX 12454 12448 12446; GX 12448 19329 19283; GX 12448 12465 19282;
GX 19282 12462 19277; GX 19277 19278 12439; GA 12456 12446 12445; GX 12445 12453 12443; GX 12445 12463 19314; GX 19314 19335 12437;
GX 1686 19314 19322; GX 19322 19283 12444; GA 12451 12443 12442; GX 12442 12455 12441].
(** aes128_with_ks.txt:504-753 *)
Definition aes_enc_file_g2 : list gate := [
GX 12442 12466 19281; GX 19322 19281 19273; GX 19304 19273 19280; GX 19277 19280 12440; GX 12442 19332 19276; GX 19331 19276 12438;
GX 19273 19274 12436; GA 12437 12474 12435; GA 12444 12473 12434; GA 12447 1687 12433; GA 12438 12468 12432; GX 12432 12435 19320;
GI 19320 19291; GA 12441 12480 12431; GA 12451 12470 12430; GX 12430 12433 19327; GX 19327 19291 19302; GA 12439 12471 12429;
GX 12429 12435 19325; GX 12429 12432 19296; GA 12436 12469 12428; GX 12428 12431 19319; GX 12428 19325 19298; GA 12440 12472 12427;
GA 12437 12478 12426; GA 12444 12475 12425; GA 12447 12479 12424; GA 12438 12483 12423; GX 12423 12427 19321; GX 19319 19321 19333;
GX 12430 19333 19299; GX 19325 19321 19293; GA 12441 12476 12422; GA 12451 12477 12421; GX 12421 12433 19326; GX 12424 19326 19289;
GA 12439 12482 12420; GA 12436 12484 12419; GX 12419 12420 19308; GX 12425 19308 19313; GX 12426 19313 19318; GX 12434 19318 19323;
GX 12422 19308 19328; GX 12431 19323 19334; GX 19320 19334 28473; GX 19327 19334 28472; GI 28472 3294; GX 12423 19328 19301;
GX 19301 19302 19300; GX 19328 19299 12487; GX 19323 19298 12486; GX 19319 19318 19297; GX 19296 19297 28476; GX 19291 19313 19290;
GX 19289 19290 19288; GI 19288 19337; GX 19337 19333 28471; GI 28471 3291; GA 12440 12481 12418; GX 12418 12420 19292;
GX 19292 19293 19336; GX 19336 19326 12485; GI 12487 28470; GI 28470 3300; GI 12486 28475; GX 28476 28475 3168;
GI 12485 28474; GI 28474 3165; GX 1688 1694 12553; GX 1688 1693 12551; GX 1694 1692 19235; GX 1690 1688 19236;
GX 1693 19235 19237; GX 1689 19237 12541; GX 1690 19237 12538; GX 1691 1689 19238; GX 1695 1689 19244; GX 19244 19237 12540;
GX 1691 1688 12552; GX 1694 1693 19256; GX 12552 19256 12548; GX 1693 1691 12554; GX 19236 12554 12539; GX 1690 19244 12550;
GX 1694 12550 12546; GX 19236 19244 12547; GX 19256 12547 12545; GX 19235 12552 12544; GX 1695 12544 12543; GX 1692 1693 19219;
GX 19238 19236 19204; GX 19235 19204 12542; GX 19238 1690 19203; GX 1695 19203 12549; GA 12548 12544 12537; GX 12537 19238 19243;
GA 12545 12543 12536; GA 12549 1695 12535; GA 12553 12538 12534; GX 12534 19236 19242; GA 12546 12550 12533; GA 12547 12540 12532;
GA 12552 12541 12531; GX 12531 19237 19239; GX 19243 19239 19249; GA 12554 12539 12530; GX 12530 12536 19248; GX 1688 19248 19263;
GX 19263 19249 12528; GX 12530 12531 19218; GX 19218 19219 19270; GX 19270 19242 19267; GX 12533 19267 12527; GA 12551 12542 12529;
GX 12529 12532 19241; GX 12529 12535 19247; GX 12530 19241 19261; GX 1690 19247 19262; GX 19242 19241 19227; GX 19239 19227 12526;
GX 19248 19247 19226; GX 19236 19226 12525; GX 12533 19261 19217; GX 1694 19217 12520; GA 12528 12527 12524; GX 12524 12526 12523;
GX 12524 19262 19216; GX 19249 19216 12519; GA 12525 12523 12522; GX 12522 19249 19264; GX 19262 19264 12521; GX 12534 12522 19211;
GX 19243 19211 19207; GX 1688 19207 19210; GX 1690 19207 19206; GA 12519 12520 12518; GX 12518 12526 12517; GX 12524 12518 12516;
GX 12518 19261 19215; GX 12518 12535 19214; GX 19214 12532 19209; GX 19209 19210 12509; GA 12526 12516 12515; GX 12515 12523 12513;
GX 12515 12533 19246; GX 19246 19267 12507; GX 1694 19246 19254; GX 19254 19215 12514; GA 12521 12513 12512; GX 12512 12525 12511;
GX 12512 12536 19213; GX 19254 19213 19205; GX 19236 19205 19212; GX 19209 19212 12510; GX 12512 19264 19208; GX 19263 19208 12508;
GX 19205 19206 12506; GA 12507 12544 12505; GA 12514 12543 12504; GA 12517 1695 12503; GA 12508 12538 12502; GX 12502 12505 19252;
GI 19252 19223; GA 12511 12550 12501; GA 12521 12540 12500; GX 12500 12503 19259; GX 19259 19223 19234; GA 12509 12541 12499;
GX 12499 12505 19257; GX 12499 12502 19228; GA 12506 12539 12498; GX 12498 12501 19251; GX 12498 19257 19230; GA 12510 12542 12497;
GA 12507 12548 12496; GA 12514 12545 12495; GA 12517 12549 12494; GA 12508 12553 12493; GX 12493 12497 19253; GX 19251 19253 19265;
GX 12500 19265 19231; GX 19257 19253 19225; GA 12511 12546 12492; GA 12521 12547 12491; GX 12491 12503 19258; GX 12494 19258 19221;
GA 12509 12552 12490; GA 12506 12554 12489; GX 12489 12490 19240; GX 12495 19240 19245; GX 12496 19245 19250; GX 12504 19250 19255;
GX 12492 19240 19260; GX 12501 19255 19266; GX 19252 19266 28494; GX 19259 19266 28493; GX 12493 19260 19233; GX 19233 19234 19232;
GX 19260 19231 12557; GX 19255 19230 12556; GX 19251 19250 19229; GX 19228 19229 28497; GX 19223 19245 19222; GX 19221 19222 19220;
GI 19220 19269; GX 19269 19265 28492; GA 12510 12551 12488; GX 12488 12490 19224; GX 19224 19225 19268; GX 19268 19258 12555;
GI 12557 28491; GI 12556 28496; GI 12555 28495; GX 1696 1702 12623; GX 1696 1701 12621; GX 1702 1700 19167;
GX 1698 1696 19168; GX 1701 19167 19169; GX 1697 19169 12611; GX 1698 19169 12608; GX 1699 1697 19170; GX 1703 1697 19176;
GX 19176 19169 12610; GX 1699 1696 12622; GX 1702 1701 19188; GX 12622 19188 12618; GX 1701 1699 12624; GX 19168 12624 12609;
GX 1698 19176 12620; GX 1702 12620 12616; GX 19168 19176 12617; GX 19188 12617 12615; GX 19167 12622 12614; GX 1703 12614 12613;
GX 1700 1701 19151; GX 19170 19168 19136; GX 19167 19136 12612; GX 19170 1698 19135; GX 1703 19135 12619; GA 12618 12614 12607;
GX 12607 19170 19175; GA 12615 12613 12606; GA 12619 1703 12605; GA 12623 12608 12604; GX 12604 19168 19174; GA 12616 12620 12603;
GA 12617 12610 12602; GA 12622 12611 12601; GX 12601 19169 19171; GX 19175 19171 19181].
(** aes128_with_ks.txt:754-1003 *)
Definition aes_enc_file_g3 : list gate := [
GA 12624 12609 12600; GX 12600 12606 19180; GX 1696 19180 19195; GX 19195 19181 12598; GX 12600 12601 19150; GX 19150 19151 19202;
GX 19202 19174 19199; GX 12603 19199 12597; GA 12621 12612 12599; GX 12599 12602 19173; GX 12599 12605 19179; GX 12600 19173 19193;
GX 1698 19179 19194; GX 19174 19173 19159; GX 19171 19159 12596; GX 19180 19179 19158; GX 19168 19158 12595; GX 12603 19193 19149;
GX 1702 19149 12590; GA 12598 12597 12594; GX 12594 12596 12593; GX 12594 19194 19148; GX 19181 19148 12589; GA 12595 12593 12592;
GX 12592 19181 19196; GX 19194 19196 12591; GX 12604 12592 19143; GX 19175 19143 19139; GX 1696 19139 19142; GX 1698 19139 19138;
GA 12589 12590 12588; GX 12588 12596 12587; GX 12594 12588 12586; GX 12588 19193 19147; GX 12588 12605 19146; GX 19146 12602 19141;
GX 19141 19142 12579; GA 12596 12586 12585; GX 12585 12593 12583; GX 12585 12603 19178; GX 19178 19199 12577; GX 1702 19178 19186;
GX 19186 19147 12584; GA 12591 12583 12582; GX 12582 12595 12581; GX 12582 12606 19145; GX 19186 19145 19137; GX 19168 19137 19144;
GX 19141 19144 12580; GX 12582 19196 19140; GX 19195 19140 12578; GX 19137 19138 12576; GA 12577 12614 12575; GA 12584 12613 12574;
GA 12587 1703 12573; GA 12578 12608 12572; GX 12572 12575 19184; GI 19184 19155; GA 12581 12620 12571; GA 12591 12610 12570;
GX 12570 12573 19191; GX 19191 19155 19166; GA 12579 12611 12569; GX 12569 12575 19189; GX 12569 12572 19160; GA 12576 12609 12568;
GX 12568 12571 19183; GX 12568 19189 19162; GA 12580 12612 12567; GA 12577 12618 12566; GA 12584 12615 12565; GA 12587 12619 12564;
GA 12578 12623 12563; GX 12563 12567 19185; GX 19183 19185 19197; GX 12570 19197 19163; GX 19189 19185 19157; GA 12581 12616 12562;
GA 12591 12617 12561; GX 12561 12573 19190; GX 12564 19190 19153; GA 12579 12622 12560; GA 12576 12624 12559; GX 12559 12560 19172;
GX 12565 19172 19177; GX 12566 19177 19182; GX 12574 19182 19187; GX 12562 19172 19192; GX 12571 19187 19198; GX 19184 19198 28515;
GX 19191 19198 28514; GX 12563 19192 19165; GX 19165 19166 19164; GX 19192 19163 12627; GX 19187 19162 12626; GX 19183 19182 19161;
GX 19160 19161 28518; GX 28497 28518 3047; GI 3047 3282; GX 3047 28514 3272; GX 3282 19164 3285; GX 19155 19177 19154;
GX 19153 19154 19152; GI 19152 19201; GX 19201 19197 28513; GX 3282 28513 3279; GA 12580 12621 12558; GX 12558 12560 19156;
GX 19156 19157 19200; GX 19200 19190 12625; GI 12627 28512; GI 12626 28517; GX 28517 28496 3202; GI 12625 28516;
GX 1704 1710 12693; GX 1704 1709 12691; GX 1710 1708 19099; GX 1706 1704 19100; GX 1709 19099 19101; GX 1705 19101 12681;
GX 1706 19101 12678; GX 1707 1705 19102; GX 1711 1705 19108; GX 19108 19101 12680; GX 1707 1704 12692; GX 1710 1709 19120;
GX 12692 19120 12688; GX 1709 1707 12694; GX 19100 12694 12679; GX 1706 19108 12690; GX 1710 12690 12686; GX 19100 19108 12687;
GX 19120 12687 12685; GX 19099 12692 12684; GX 1711 12684 12683; GX 1708 1709 19083; GX 19102 19100 19068; GX 19099 19068 12682;
GX 19102 1706 19067; GX 1711 19067 12689; GA 12688 12684 12677; GX 12677 19102 19107; GA 12685 12683 12676; GA 12689 1711 12675;
GA 12693 12678 12674; GX 12674 19100 19106; GA 12686 12690 12673; GA 12687 12680 12672; GA 12692 12681 12671; GX 12671 19101 19103;
GX 19107 19103 19113; GA 12694 12679 12670; GX 12670 12676 19112; GX 1704 19112 19127; GX 19127 19113 12668; GX 12670 12671 19082;
GX 19082 19083 19134; GX 19134 19106 19131; GX 12673 19131 12667; GA 12691 12682 12669; GX 12669 12672 19105; GX 12669 12675 19111;
GX 12670 19105 19125; GX 1706 19111 19126; GX 19106 19105 19091; GX 19103 19091 12666; GX 19112 19111 19090; GX 19100 19090 12665;
GX 12673 19125 19081; GX 1710 19081 12660; GA 12668 12667 12664; GX 12664 12666 12663; GX 12664 19126 19080; GX 19113 19080 12659;
GA 12665 12663 12662; GX 12662 19113 19128; GX 19126 19128 12661; GX 12674 12662 19075; GX 19107 19075 19071; GX 1704 19071 19074;
GX 1706 19071 19070; GA 12659 12660 12658; GX 12658 12666 12657; GX 12664 12658 12656; GX 12658 19125 19079; GX 12658 12675 19078;
GX 19078 12672 19073; GX 19073 19074 12649; GA 12666 12656 12655; GX 12655 12663 12653; GX 12655 12673 19110; GX 19110 19131 12647;
GX 1710 19110 19118; GX 19118 19079 12654; GA 12661 12653 12652; GX 12652 12665 12651; GX 12652 12676 19077; GX 19118 19077 19069;
GX 19100 19069 19076; GX 19073 19076 12650; GX 12652 19128 19072; GX 19127 19072 12648; GX 19069 19070 12646; GA 12647 12684 12645;
GA 12654 12683 12644; GA 12657 1711 12643; GA 12648 12678 12642; GX 12642 12645 19116; GI 19116 19087; GA 12651 12690 12641;
GA 12661 12680 12640; GX 12640 12643 19123; GX 19123 19087 19098; GA 12649 12681 12639; GX 12639 12645 19121; GX 12639 12642 19092;
GA 12646 12679 12638; GX 12638 12641 19115; GX 12638 19121 19094; GA 12650 12682 12637; GA 12647 12688 12636; GA 12654 12685 12635;
GA 12657 12689 12634; GA 12648 12693 12633; GX 12633 12637 19117; GX 19115 19117 19129; GX 12640 19129 19095; GX 19121 19117 19089;
GA 12651 12686 12632; GA 12661 12687 12631; GX 12631 12643 19122; GX 12634 19122 19085; GA 12649 12692 12630; GA 12646 12694 12629;
GX 12629 12630 19104; GX 12635 19104 19109; GX 12636 19109 19114; GX 12644 19114 19119; GX 12632 19104 19124; GX 12641 19119 19130;
GX 19116 19130 28536; GX 28536 28543 3031; GI 28536 3095; GX 19123 19130 28535; GX 28535 28542 3029; GX 12633 19124 19097;
GX 19097 19098 19096; GX 19096 19436 3023; GX 19124 19095 12697; GX 19119 19094 12696].
(** aes128_with_ks.txt:1004-1253 *)
Definition aes_enc_file_g4 : list gate := [
GX 19115 19114 19093; GX 19092 19093 28539; GX 28539 28546 3041; GX 3041 28535 3093; GX 3041 3095 3096; GX 19087 19109 19086;
GX 19085 19086 19084; GI 19084 19133; GX 19133 19129 28534; GX 28534 28541 3027; GA 12650 12691 12628; GX 12628 12630 19088;
GX 19088 19089 19132; GX 19132 19122 12695; GI 12697 28533; GX 28533 28540 3025; GI 28533 3088; GX 3041 3088 3089;
GI 12696 28538; GX 28538 28545 3034; GX 3034 28544 3056; GI 12695 28537; GX 28537 28544 3033; GI 3033 3052;
GX 3052 28543 3054; GX 1712 1718 12763; GX 1712 1717 12761; GX 1718 1716 19031; GX 1714 1712 19032; GX 1717 19031 19033;
GX 1713 19033 12751; GX 1714 19033 12748; GX 1715 1713 19034; GX 1719 1713 19040; GX 19040 19033 12750; GX 1715 1712 12762;
GX 1718 1717 19052; GX 12762 19052 12758; GX 1717 1715 12764; GX 19032 12764 12749; GX 1714 19040 12760; GX 1718 12760 12756;
GX 19032 19040 12757; GX 19052 12757 12755; GX 19031 12762 12754; GX 1719 12754 12753; GX 1716 1717 19015; GX 19034 19032 19000;
GX 19031 19000 12752; GX 19034 1714 18999; GX 1719 18999 12759; GA 12758 12754 12747; GX 12747 19034 19039; GA 12755 12753 12746;
GA 12759 1719 12745; GA 12763 12748 12744; GX 12744 19032 19038; GA 12756 12760 12743; GA 12757 12750 12742; GA 12762 12751 12741;
GX 12741 19033 19035; GX 19039 19035 19045; GA 12764 12749 12740; GX 12740 12746 19044; GX 1712 19044 19059; GX 19059 19045 12738;
GX 12740 12741 19014; GX 19014 19015 19066; GX 19066 19038 19063; GX 12743 19063 12737; GA 12761 12752 12739; GX 12739 12742 19037;
GX 12739 12745 19043; GX 12740 19037 19057; GX 1714 19043 19058; GX 19038 19037 19023; GX 19035 19023 12736; GX 19044 19043 19022;
GX 19032 19022 12735; GX 12743 19057 19013; GX 1718 19013 12730; GA 12738 12737 12734; GX 12734 12736 12733; GX 12734 19058 19012;
GX 19045 19012 12729; GA 12735 12733 12732; GX 12732 19045 19060; GX 19058 19060 12731; GX 12744 12732 19007; GX 19039 19007 19003;
GX 1712 19003 19006; GX 1714 19003 19002; GA 12729 12730 12728; GX 12728 12736 12727; GX 12734 12728 12726; GX 12728 19057 19011;
GX 12728 12745 19010; GX 19010 12742 19005; GX 19005 19006 12719; GA 12736 12726 12725; GX 12725 12733 12723; GX 12725 12743 19042;
GX 19042 19063 12717; GX 1718 19042 19050; GX 19050 19011 12724; GA 12731 12723 12722; GX 12722 12735 12721; GX 12722 12746 19009;
GX 19050 19009 19001; GX 19032 19001 19008; GX 19005 19008 12720; GX 12722 19060 19004; GX 19059 19004 12718; GX 19001 19002 12716;
GA 12717 12754 12715; GA 12724 12753 12714; GA 12727 1719 12713; GA 12718 12748 12712; GX 12712 12715 19048; GI 19048 19019;
GA 12721 12760 12711; GA 12731 12750 12710; GX 12710 12713 19055; GX 19055 19019 19030; GA 12719 12751 12709; GX 12709 12715 19053;
GX 12709 12712 19024; GA 12716 12749 12708; GX 12708 12711 19047; GX 12708 19053 19026; GA 12720 12752 12707; GA 12717 12758 12706;
GA 12724 12755 12705; GA 12727 12759 12704; GA 12718 12763 12703; GX 12703 12707 19049; GX 19047 19049 19061; GX 12710 19061 19027;
GX 19053 19049 19021; GA 12721 12756 12702; GA 12731 12757 12701; GX 12701 12713 19054; GX 12704 19054 19017; GA 12719 12762 12700;
GA 12716 12764 12699; GX 12699 12700 19036; GX 12705 19036 19041; GX 12706 19041 19046; GX 12714 19046 19051; GX 12702 19036 19056;
GX 12711 19051 19062; GX 19048 19062 28445; GX 28452 28445 3110; GX 19055 19062 28444; GI 28444 3311; GX 28451 3311 3304;
GX 12703 19056 19029; GX 19029 19030 19028; GX 19056 19027 12767; GX 19051 19026 12766; GX 19047 19046 19025; GX 19024 19025 28448;
GX 28448 28455 3044; GX 3044 19028 3315; GX 19019 19041 19018; GX 19017 19018 19016; GI 19016 19065; GX 19065 19061 28443;
GX 28450 28443 3308; GA 12720 12761 12698; GX 12698 12700 19020; GX 19020 19021 19064; GX 19064 19054 12765; GI 12767 28442;
GI 12766 28447; GX 28448 28447 3115; GI 12765 28446; GI 28446 3179; GX 28453 3179 3113; GX 1720 1726 12833;
GX 1720 1725 12831; GX 1726 1724 18963; GX 1722 1720 18964; GX 1725 18963 18965; GX 1721 18965 12821; GX 1722 18965 12818;
GX 1723 1721 18966; GX 1727 1721 18972; GX 18972 18965 12820; GX 1723 1720 12832; GX 1726 1725 18984; GX 12832 18984 12828;
GX 1725 1723 12834; GX 18964 12834 12819; GX 1722 18972 12830; GX 1726 12830 12826; GX 18964 18972 12827; GX 18984 12827 12825;
GX 18963 12832 12824; GX 1727 12824 12823; GX 1724 1725 18947; GX 18966 18964 18932; GX 18963 18932 12822; GX 18966 1722 18931;
GX 1727 18931 12829; GA 12828 12824 12817; GX 12817 18966 18971; GA 12825 12823 12816; GA 12829 1727 12815; GA 12833 12818 12814;
GX 12814 18964 18970; GA 12826 12830 12813; GA 12827 12820 12812; GA 12832 12821 12811; GX 12811 18965 18967; GX 18971 18967 18977;
GA 12834 12819 12810; GX 12810 12816 18976; GX 1720 18976 18991; GX 18991 18977 12808; GX 12810 12811 18946; GX 18946 18947 18998;
GX 18998 18970 18995; GX 12813 18995 12807; GA 12831 12822 12809; GX 12809 12812 18969; GX 12809 12815 18975; GX 12810 18969 18989;
GX 1722 18975 18990; GX 18970 18969 18955; GX 18967 18955 12806; GX 18976 18975 18954; GX 18964 18954 12805; GX 12813 18989 18945;
GX 1726 18945 12800; GA 12808 12807 12804; GX 12804 12806 12803; GX 12804 18990 18944; GX 18977 18944 12799; GA 12805 12803 12802;
GX 12802 18977 18992; GX 18990 18992 12801; GX 12814 12802 18939; GX 18971 18939 18935; GX 1720 18935 18938; GX 1722 18935 18934;
GA 12799 12800 12798; GX 12798 12806 12797; GX 12804 12798 12796; GX 12798 18989 18943].
(** aes128_with_ks.txt:1254-1503 *)
Definition aes_enc_file_g5 : list gate := [
GX 12798 12815 18942; GX 18942 12812 18937; GX 18937 18938 12789; GA 12806 12796 12795; GX 12795 12803 12793; GX 12795 12813 18974;
GX 18974 18995 12787; GX 1726 18974 18982; GX 18982 18943 12794; GA 12801 12793 12792; GX 12792 12805 12791; GX 12792 12816 18941;
GX 18982 18941 18933; GX 18964 18933 18940; GX 18937 18940 12790; GX 12792 18992 18936; GX 18991 18936 12788; GX 18933 18934 12786;
GA 12787 12824 12785; GA 12794 12823 12784; GA 12797 1727 12783; GA 12788 12818 12782; GX 12782 12785 18980; GI 18980 18951;
GA 12791 12830 12781; GA 12801 12820 12780; GX 12780 12783 18987; GX 18987 18951 18962; GA 12789 12821 12779; GX 12779 12785 18985;
GX 12779 12782 18956; GA 12786 12819 12778; GX 12778 12781 18979; GX 12778 18985 18958; GA 12790 12822 12777; GA 12787 12828 12776;
GA 12794 12825 12775; GA 12797 12829 12774; GA 12788 12833 12773; GX 12773 12777 18981; GX 18979 18981 18993; GX 12780 18993 18959;
GX 18985 18981 18953; GA 12791 12826 12772; GA 12801 12827 12771; GX 12771 12783 18986; GX 12774 18986 18949; GA 12789 12832 12770;
GA 12786 12834 12769; GX 12769 12770 18968; GX 12775 18968 18973; GX 12776 18973 18978; GX 12784 18978 18983; GX 12772 18968 18988;
GX 12781 18983 18994; GX 18980 18994 28466; GX 28466 28473 3000; GX 3165 28466 3139; GX 18987 18994 28465; GX 28465 28472 2998;
GI 2998 3175; GX 28473 28465 3288; GX 12773 18988 18961; GX 18961 18962 18960; GX 18960 19300 2993; GI 2993 3146;
GX 3300 18960 3301; GX 18988 18959 12837; GX 18983 18958 12836; GX 18979 18978 18957; GX 18956 18957 28469; GX 28469 28476 3038;
GI 3038 3152; GX 3152 28465 3150; GX 3152 28466 3153; GX 18951 18973 18950; GX 18949 18950 18948; GI 18948 18997;
GX 18997 18993 28464; GX 3294 28464 3295; GX 28464 28471 2996; GI 2996 3159; GA 12790 12831 12768; GX 12768 12770 18952;
GX 18952 18953 18996; GX 18996 18986 12835; GI 12837 28463; GX 28463 28470 2994; GX 3152 28463 3147; GX 3291 28463 3135;
GI 2994 3171; GI 12836 28468; GX 28468 28475 3004; GI 3004 3164; GI 12835 28467; GX 28467 28474 3002;
GX 28475 28467 3141; GX 1728 1734 12903; GX 1728 1733 12901; GX 1734 1732 18895; GX 1730 1728 18896; GX 1733 18895 18897;
GX 1729 18897 12891; GX 1730 18897 12888; GX 1731 1729 18898; GX 1735 1729 18904; GX 18904 18897 12890; GX 1731 1728 12902;
GX 1734 1733 18916; GX 12902 18916 12898; GX 1733 1731 12904; GX 18896 12904 12889; GX 1730 18904 12900; GX 1734 12900 12896;
GX 18896 18904 12897; GX 18916 12897 12895; GX 18895 12902 12894; GX 1735 12894 12893; GX 1732 1733 18879; GX 18898 18896 18864;
GX 18895 18864 12892; GX 18898 1730 18863; GX 1735 18863 12899; GA 12898 12894 12887; GX 12887 18898 18903; GA 12895 12893 12886;
GA 12899 1735 12885; GA 12903 12888 12884; GX 12884 18896 18902; GA 12896 12900 12883; GA 12897 12890 12882; GA 12902 12891 12881;
GX 12881 18897 18899; GX 18903 18899 18909; GA 12904 12889 12880; GX 12880 12886 18908; GX 1728 18908 18923; GX 18923 18909 12878;
GX 12880 12881 18878; GX 18878 18879 18930; GX 18930 18902 18927; GX 12883 18927 12877; GA 12901 12892 12879; GX 12879 12882 18901;
GX 12879 12885 18907; GX 12880 18901 18921; GX 1730 18907 18922; GX 18902 18901 18887; GX 18899 18887 12876; GX 18908 18907 18886;
GX 18896 18886 12875; GX 12883 18921 18877; GX 1734 18877 12870; GA 12878 12877 12874; GX 12874 12876 12873; GX 12874 18922 18876;
GX 18909 18876 12869; GA 12875 12873 12872; GX 12872 18909 18924; GX 18922 18924 12871; GX 12884 12872 18871; GX 18903 18871 18867;
GX 1728 18867 18870; GX 1730 18867 18866; GA 12869 12870 12868; GX 12868 12876 12867; GX 12874 12868 12866; GX 12868 18921 18875;
GX 12868 12885 18874; GX 18874 12882 18869; GX 18869 18870 12859; GA 12876 12866 12865; GX 12865 12873 12863; GX 12865 12883 18906;
GX 18906 18927 12857; GX 1734 18906 18914; GX 18914 18875 12864; GA 12871 12863 12862; GX 12862 12875 12861; GX 12862 12886 18873;
GX 18914 18873 18865; GX 18896 18865 18872; GX 18869 18872 12860; GX 12862 18924 18868; GX 18923 18868 12858; GX 18865 18866 12856;
GA 12857 12894 12855; GA 12864 12893 12854; GA 12867 1735 12853; GA 12858 12888 12852; GX 12852 12855 18912; GI 18912 18883;
GA 12861 12900 12851; GA 12871 12890 12850; GX 12850 12853 18919; GX 18919 18883 18894; GA 12859 12891 12849; GX 12849 12855 18917;
GX 12849 12852 18888; GA 12856 12889 12848; GX 12848 12851 18911; GX 12848 18917 18890; GA 12860 12892 12847; GA 12857 12898 12846;
GA 12864 12895 12845; GA 12867 12899 12844; GA 12858 12903 12843; GX 12843 12847 18913; GX 18911 18913 18925; GX 12850 18925 18891;
GX 18917 18913 18885; GA 12861 12896 12842; GA 12871 12897 12841; GX 12841 12853 18918; GX 12844 18918 18881; GA 12859 12902 12840;
GA 12856 12904 12839; GX 12839 12840 18900; GX 12845 18900 18905; GX 12846 18905 18910; GX 12854 18910 18915; GX 12842 18900 18920;
GX 12851 18915 18926; GX 18912 18926 28487; GX 18919 18926 28486; GX 12843 18920 18893; GX 18893 18894 18892; GX 18920 18891 12907;
GX 18915 18890 12906; GX 18911 18910 18889; GX 18888 18889 28490; GX 28469 28490 3045; GI 3045 3299; GX 3164 3299 3157;
GX 3045 28486 3289; GX 3289 3288 2965; GX 3299 18892 3302; GX 3302 3301 2961; GX 18883 18905 18882; GX 18881 18882 18880;
GI 18880 18929; GX 18929 18925 28485; GX 3159 28485 3161; GX 3299 28485 3296; GX 3296 3295 2963; GA 12860 12901 12838;
GX 12838 12840 18884; GX 18884 18885 18928; GX 18928 18918 12905; GI 12907 28484].
(** aes128_with_ks.txt:1504-1753 *)
Definition aes_enc_file_g6 : list gate := [
GI 12906 28489; GX 28489 28468 3143; GX 3164 28489 3167; GI 12905 28488; GX 3002 28488 3163; GX 1736 1742 12973;
GX 1736 1741 12971; GX 1742 1740 18827; GX 1738 1736 18828; GX 1741 18827 18829; GX 1737 18829 12961; GX 1738 18829 12958;
GX 1739 1737 18830; GX 1743 1737 18836; GX 18836 18829 12960; GX 1739 1736 12972; GX 1742 1741 18848; GX 12972 18848 12968;
GX 1741 1739 12974; GX 18828 12974 12959; GX 1738 18836 12970; GX 1742 12970 12966; GX 18828 18836 12967; GX 18848 12967 12965;
GX 18827 12972 12964; GX 1743 12964 12963; GX 1740 1741 18811; GX 18830 18828 18796; GX 18827 18796 12962; GX 18830 1738 18795;
GX 1743 18795 12969; GA 12968 12964 12957; GX 12957 18830 18835; GA 12965 12963 12956; GA 12969 1743 12955; GA 12973 12958 12954;
GX 12954 18828 18834; GA 12966 12970 12953; GA 12967 12960 12952; GA 12972 12961 12951; GX 12951 18829 18831; GX 18835 18831 18841;
GA 12974 12959 12950; GX 12950 12956 18840; GX 1736 18840 18855; GX 18855 18841 12948; GX 12950 12951 18810; GX 18810 18811 18862;
GX 18862 18834 18859; GX 12953 18859 12947; GA 12971 12962 12949; GX 12949 12952 18833; GX 12949 12955 18839; GX 12950 18833 18853;
GX 1738 18839 18854; GX 18834 18833 18819; GX 18831 18819 12946; GX 18840 18839 18818; GX 18828 18818 12945; GX 12953 18853 18809;
GX 1742 18809 12940; GA 12948 12947 12944; GX 12944 12946 12943; GX 12944 18854 18808; GX 18841 18808 12939; GA 12945 12943 12942;
GX 12942 18841 18856; GX 18854 18856 12941; GX 12954 12942 18803; GX 18835 18803 18799; GX 1736 18799 18802; GX 1738 18799 18798;
GA 12939 12940 12938; GX 12938 12946 12937; GX 12944 12938 12936; GX 12938 18853 18807; GX 12938 12955 18806; GX 18806 12952 18801;
GX 18801 18802 12929; GA 12946 12936 12935; GX 12935 12943 12933; GX 12935 12953 18838; GX 18838 18859 12927; GX 1742 18838 18846;
GX 18846 18807 12934; GA 12941 12933 12932; GX 12932 12945 12931; GX 12932 12956 18805; GX 18846 18805 18797; GX 18828 18797 18804;
GX 18801 18804 12930; GX 12932 18856 18800; GX 18855 18800 12928; GX 18797 18798 12926; GA 12927 12964 12925; GA 12934 12963 12924;
GA 12937 1743 12923; GA 12928 12958 12922; GX 12922 12925 18844; GI 18844 18815; GA 12931 12970 12921; GA 12941 12960 12920;
GX 12920 12923 18851; GX 18851 18815 18826; GA 12929 12961 12919; GX 12919 12925 18849; GX 12919 12922 18820; GA 12926 12959 12918;
GX 12918 12921 18843; GX 12918 18849 18822; GA 12930 12962 12917; GA 12927 12968 12916; GA 12934 12965 12915; GA 12937 12969 12914;
GA 12928 12973 12913; GX 12913 12917 18845; GX 18843 18845 18857; GX 12920 18857 18823; GX 18849 18845 18817; GA 12931 12966 12912;
GA 12941 12967 12911; GX 12911 12923 18850; GX 12914 18850 18813; GA 12929 12972 12910; GA 12926 12974 12909; GX 12909 12910 18832;
GX 12915 18832 18837; GX 12916 18837 18842; GX 12924 18842 18847; GX 12912 18832 18852; GX 12921 18847 18858; GX 18844 18858 28508;
GX 28508 28515 3017; GX 18851 18858 28507; GX 28507 28514 3015; GX 12913 18852 18825; GX 18825 18826 18824; GX 18824 19164 3009;
GX 3009 3047 3189; GX 18852 18823 12977; GX 18847 18822 12976; GX 18843 18842 18821; GX 18820 18821 28511; GX 28511 28518 3039;
GI 3039 3240; GX 3240 28507 3238; GX 3240 28508 3241; GX 18815 18837 18814; GX 18813 18814 18812; GI 18812 18861;
GX 18861 18857 28506; GX 28506 28513 3013; GX 3013 28512 3191; GA 12930 12971 12908; GX 12908 12910 18816; GX 18816 18817 18860;
GX 18860 18850 12975; GI 12977 28505; GX 28505 28512 3011; GX 3240 28505 3233; GI 12976 28510; GX 28510 28517 3020;
GX 3020 28516 3201; GX 3047 28510 3230; GI 12975 28509; GX 28509 28516 3019; GI 3019 3193; GX 3193 28515 3195;
GX 1744 1750 13043; GX 1744 1749 13041; GX 1750 1748 18759; GX 1746 1744 18760; GX 1749 18759 18761; GX 1745 18761 13031;
GX 1746 18761 13028; GX 1747 1745 18762; GX 1751 1745 18768; GX 18768 18761 13030; GX 1747 1744 13042; GX 1750 1749 18780;
GX 13042 18780 13038; GX 1749 1747 13044; GX 18760 13044 13029; GX 1746 18768 13040; GX 1750 13040 13036; GX 18760 18768 13037;
GX 18780 13037 13035; GX 18759 13042 13034; GX 1751 13034 13033; GX 1748 1749 18743; GX 18762 18760 18728; GX 18759 18728 13032;
GX 18762 1746 18727; GX 1751 18727 13039; GA 13038 13034 13027; GX 13027 18762 18767; GA 13035 13033 13026; GA 13039 1751 13025;
GA 13043 13028 13024; GX 13024 18760 18766; GA 13036 13040 13023; GA 13037 13030 13022; GA 13042 13031 13021; GX 13021 18761 18763;
GX 18767 18763 18773; GA 13044 13029 13020; GX 13020 13026 18772; GX 1744 18772 18787; GX 18787 18773 13018; GX 13020 13021 18742;
GX 18742 18743 18794; GX 18794 18766 18791; GX 13023 18791 13017; GA 13041 13032 13019; GX 13019 13022 18765; GX 13019 13025 18771;
GX 13020 18765 18785; GX 1746 18771 18786; GX 18766 18765 18751; GX 18763 18751 13016; GX 18772 18771 18750; GX 18760 18750 13015;
GX 13023 18785 18741; GX 1750 18741 13010; GA 13018 13017 13014; GX 13014 13016 13013; GX 13014 18786 18740; GX 18773 18740 13009;
GA 13015 13013 13012; GX 13012 18773 18788; GX 18786 18788 13011; GX 13024 13012 18735; GX 18767 18735 18731; GX 1744 18731 18734;
GX 1746 18731 18730; GA 13009 13010 13008; GX 13008 13016 13007; GX 13014 13008 13006; GX 13008 18785 18739; GX 13008 13025 18738;
GX 18738 13022 18733; GX 18733 18734 12999; GA 13016 13006 13005; GX 13005 13013 13003; GX 13005 13023 18770; GX 18770 18791 12997;
GX 1750 18770 18778; GX 18778 18739 13004; GA 13011 13003 13002; GX 13002 13015 13001].
(** aes128_with_ks.txt:1754-2003 *)
Definition aes_enc_file_g7 : list gate := [
GX 13002 13026 18737; GX 18778 18737 18729; GX 18760 18729 18736; GX 18733 18736 13000; GX 13002 18788 18732; GX 18787 18732 12998;
GX 18729 18730 12996; GA 12997 13034 12995; GA 13004 13033 12994; GA 13007 1751 12993; GA 12998 13028 12992; GX 12992 12995 18776;
GI 18776 18747; GA 13001 13040 12991; GA 13011 13030 12990; GX 12990 12993 18783; GX 18783 18747 18758; GA 12999 13031 12989;
GX 12989 12995 18781; GX 12989 12992 18752; GA 12996 13029 12988; GX 12988 12991 18775; GX 12988 18781 18754; GA 13000 13032 12987;
GA 12997 13038 12986; GA 13004 13035 12985; GA 13007 13039 12984; GA 12998 13043 12983; GX 12983 12987 18777; GX 18775 18777 18789;
GX 12990 18789 18755; GX 18781 18777 18749; GA 13001 13036 12982; GA 13011 13037 12981; GX 12981 12993 18782; GX 12984 18782 18745;
GA 12999 13042 12980; GA 12996 13044 12979; GX 12979 12980 18764; GX 12985 18764 18769; GX 12986 18769 18774; GX 12994 18774 18779;
GX 12982 18764 18784; GX 12991 18779 18790; GX 18776 18790 28529; GX 3095 28529 3075; GX 28542 28529 3257; GX 18783 18790 28528;
GI 28528 3262; GX 28535 3262 3255; GX 28541 3262 3263; GX 12983 18784 18757; GX 18757 18758 18756; GX 19096 18756 3265;
GX 18784 18755 13047; GX 18779 18754 13046; GX 18775 18774 18753; GX 18752 18753 28532; GX 28532 28539 3050; GX 3050 28546 3058;
GX 3034 3050 3101; GX 3050 28543 3254; GI 3254 3256; GX 3256 3255 2978; GX 3050 28542 3260; GX 3050 28540 3266;
GX 3266 3265 2974; GX 18747 18769 18746; GX 18745 18746 18744; GI 18744 18793; GX 18793 18789 28527; GX 28540 28527 3248;
GX 28534 28527 3259; GX 3260 3259 2976; GA 13000 13041 12978; GX 12978 12980 18748; GX 18748 18749 18792; GX 18792 18782 13045;
GI 13047 28526; GX 3088 28526 3073; GX 19436 28526 3267; GI 13046 28531; GX 28532 28531 3082; GI 13045 28530;
GI 28530 3079; GX 28537 3079 3080; GX 1752 1758 13113; GX 1752 1757 13111; GX 1758 1756 18691; GX 1754 1752 18692;
GX 1757 18691 18693; GX 1753 18693 13101; GX 1754 18693 13098; GX 1755 1753 18694; GX 1759 1753 18700; GX 18700 18693 13100;
GX 1755 1752 13112; GX 1758 1757 18712; GX 13112 18712 13108; GX 1757 1755 13114; GX 18692 13114 13099; GX 1754 18700 13110;
GX 1758 13110 13106; GX 18692 18700 13107; GX 18712 13107 13105; GX 18691 13112 13104; GX 1759 13104 13103; GX 1756 1757 18675;
GX 18694 18692 18660; GX 18691 18660 13102; GX 18694 1754 18659; GX 1759 18659 13109; GA 13108 13104 13097; GX 13097 18694 18699;
GA 13105 13103 13096; GA 13109 1759 13095; GA 13113 13098 13094; GX 13094 18692 18698; GA 13106 13110 13093; GA 13107 13100 13092;
GA 13112 13101 13091; GX 13091 18693 18695; GX 18699 18695 18705; GA 13114 13099 13090; GX 13090 13096 18704; GX 1752 18704 18719;
GX 18719 18705 13088; GX 13090 13091 18674; GX 18674 18675 18726; GX 18726 18698 18723; GX 13093 18723 13087; GA 13111 13102 13089;
GX 13089 13092 18697; GX 13089 13095 18703; GX 13090 18697 18717; GX 1754 18703 18718; GX 18698 18697 18683; GX 18695 18683 13086;
GX 18704 18703 18682; GX 18692 18682 13085; GX 13093 18717 18673; GX 1758 18673 13080; GA 13088 13087 13084; GX 13084 13086 13083;
GX 13084 18718 18672; GX 18705 18672 13079; GA 13085 13083 13082; GX 13082 18705 18720; GX 18718 18720 13081; GX 13094 13082 18667;
GX 18699 18667 18663; GX 1752 18663 18666; GX 1754 18663 18662; GA 13079 13080 13078; GX 13078 13086 13077; GX 13084 13078 13076;
GX 13078 18717 18671; GX 13078 13095 18670; GX 18670 13092 18665; GX 18665 18666 13069; GA 13086 13076 13075; GX 13075 13083 13073;
GX 13075 13093 18702; GX 18702 18723 13067; GX 1758 18702 18710; GX 18710 18671 13074; GA 13081 13073 13072; GX 13072 13085 13071;
GX 13072 13096 18669; GX 18710 18669 18661; GX 18692 18661 18668; GX 18665 18668 13070; GX 13072 18720 18664; GX 18719 18664 13068;
GX 18661 18662 13066; GA 13067 13104 13065; GA 13074 13103 13064; GA 13077 1759 13063; GA 13068 13098 13062; GX 13062 13065 18708;
GI 18708 18679; GA 13071 13110 13061; GA 13081 13100 13060; GX 13060 13063 18715; GX 18715 18679 18690; GA 13069 13101 13059;
GX 13059 13065 18713; GX 13059 13062 18684; GA 13066 13099 13058; GX 13058 13061 18707; GX 13058 18713 18686; GA 13070 13102 13057;
GA 13067 13108 13056; GA 13074 13105 13055; GA 13077 13109 13054; GA 13068 13113 13053; GX 13053 13057 18709; GX 18707 18709 18721;
GX 13060 18721 18687; GX 18713 18709 18681; GA 13071 13106 13052; GA 13081 13107 13051; GX 13051 13063 18714; GX 13054 18714 18677;
GA 13069 13112 13050; GA 13066 13114 13049; GX 13049 13050 18696; GX 13055 18696 18701; GX 13056 18701 18706; GX 13064 18706 18711;
GX 13052 18696 18716; GX 13061 18711 18722; GX 18708 18722 28438; GX 28438 28445 2986; GI 2986 3125; GX 18715 18722 28437;
GX 28437 28444 2984; GI 2984 3122; GX 13053 18716 18689; GX 18689 18690 18688; GX 18688 19028 2979; GX 2979 3044 3107;
GX 18716 18687 13117; GX 18711 18686 13116; GX 18707 18706 18685; GX 18684 18685 28441; GX 28441 28448 3036; GI 3036 3250;
GX 3250 28438 3102; GX 3250 28437 3084; GX 18679 18701 18678; GX 18677 18678 18676; GI 18676 18725; GX 18725 18721 28436;
GX 28436 28443 2982; GX 2982 28442 3109; GA 13070 13111 13048; GX 13048 13050 18680; GX 18680 18681 18724; GX 18724 18714 13115;
GI 13117 28435; GX 28435 28442 2980; GX 28435 28443 3130; GI 2980 3118; GX 3250 28435 3251; GI 13116 28440;
GX 28440 28447 2990; GI 2990 3112; GX 3044 28440 3218; GI 13115 28439].
(** aes128_with_ks.txt:2004-2253 *)
Definition aes_enc_file_g8 : list gate := [
GX 28439 28446 2988; GX 1760 1766 13183; GX 1760 1765 13181; GX 1766 1764 18623; GX 1762 1760 18624; GX 1765 18623 18625;
GX 1761 18625 13171; GX 1762 18625 13168; GX 1763 1761 18626; GX 1767 1761 18632; GX 18632 18625 13170; GX 1763 1760 13182;
GX 1766 1765 18644; GX 13182 18644 13178; GX 1765 1763 13184; GX 18624 13184 13169; GX 1762 18632 13180; GX 1766 13180 13176;
GX 18624 18632 13177; GX 18644 13177 13175; GX 18623 13182 13174; GX 1767 13174 13173; GX 1764 1765 18607; GX 18626 18624 18592;
GX 18623 18592 13172; GX 18626 1762 18591; GX 1767 18591 13179; GA 13178 13174 13167; GX 13167 18626 18631; GA 13175 13173 13166;
GA 13179 1767 13165; GA 13183 13168 13164; GX 13164 18624 18630; GA 13176 13180 13163; GA 13177 13170 13162; GA 13182 13171 13161;
GX 13161 18625 18627; GX 18631 18627 18637; GA 13184 13169 13160; GX 13160 13166 18636; GX 1760 18636 18651; GX 18651 18637 13158;
GX 13160 13161 18606; GX 18606 18607 18658; GX 18658 18630 18655; GX 13163 18655 13157; GA 13181 13172 13159; GX 13159 13162 18629;
GX 13159 13165 18635; GX 13160 18629 18649; GX 1762 18635 18650; GX 18630 18629 18615; GX 18627 18615 13156; GX 18636 18635 18614;
GX 18624 18614 13155; GX 13163 18649 18605; GX 1766 18605 13150; GA 13158 13157 13154; GX 13154 13156 13153; GX 13154 18650 18604;
GX 18637 18604 13149; GA 13155 13153 13152; GX 13152 18637 18652; GX 18650 18652 13151; GX 13164 13152 18599; GX 18631 18599 18595;
GX 1760 18595 18598; GX 1762 18595 18594; GA 13149 13150 13148; GX 13148 13156 13147; GX 13154 13148 13146; GX 13148 18649 18603;
GX 13148 13165 18602; GX 18602 13162 18597; GX 18597 18598 13139; GA 13156 13146 13145; GX 13145 13153 13143; GX 13145 13163 18634;
GX 18634 18655 13137; GX 1766 18634 18642; GX 18642 18603 13144; GA 13151 13143 13142; GX 13142 13155 13141; GX 13142 13166 18601;
GX 18642 18601 18593; GX 18624 18593 18600; GX 18597 18600 13140; GX 13142 18652 18596; GX 18651 18596 13138; GX 18593 18594 13136;
GA 13137 13174 13135; GA 13144 13173 13134; GA 13147 1767 13133; GA 13138 13168 13132; GX 13132 13135 18640; GI 18640 18611;
GA 13141 13180 13131; GA 13151 13170 13130; GX 13130 13133 18647; GX 18647 18611 18622; GA 13139 13171 13129; GX 13129 13135 18645;
GX 13129 13132 18616; GA 13136 13169 13128; GX 13128 13131 18639; GX 13128 18645 18618; GA 13140 13172 13127; GA 13137 13178 13126;
GA 13144 13175 13125; GA 13147 13179 13124; GA 13138 13183 13123; GX 13123 13127 18641; GX 18639 18641 18653; GX 13130 18653 18619;
GX 18645 18641 18613; GA 13141 13176 13122; GA 13151 13177 13121; GX 13121 13133 18646; GX 13124 18646 18609; GA 13139 13182 13120;
GA 13136 13184 13119; GX 13119 13120 18628; GX 13125 18628 18633; GX 13126 18633 18638; GX 13134 18638 18643; GX 13122 18628 18648;
GX 13131 18643 18654; GX 18640 18654 28459; GX 3044 28459 3303; GI 3303 3305; GX 28452 28459 2989; GX 3122 2989 3103;
GX 3103 3102 28319; GX 28319 235 1651; GX 2988 2989 3129; GX 28453 3129 28336; GX 28336 250 1634; GX 28459 3179 3180;
GX 3305 3304 2960; GX 2960 2986 28327; GX 28327 243 1643; GX 18647 18654 28458; GX 28451 28458 2987; GX 2982 2987 3085;
GX 3085 3084 3086; GI 3086 28318; GX 28318 236 1652; GX 3125 2987 3128; GX 28458 28445 3306; GX 3044 28458 3309;
GX 3309 3308 2958; GX 2958 2984 28326; GX 28326 244 1644; GX 13123 18648 18621; GX 18621 18622 18620; GX 18620 18688 3316;
GX 19368 18620 2981; GX 18620 3107 28323; GX 28323 247 1647; GX 3118 2981 3120; GX 2981 3036 3235; GX 18688 3235 28315;
GX 28315 239 1655; GX 18648 18619 13187; GX 18643 18618 13186; GX 18639 18638 18617; GX 18616 18617 28462; GX 28441 28462 3043;
GX 28455 28462 3035; GX 3043 28442 3317; GX 2981 3043 3051; GX 19028 3051 28307; GX 28307 231 1663; GX 3043 28454 3116;
GX 3116 3115 28330; GX 28330 240 1640; GX 1643 1640 12132; GI 3043 3310; GX 3112 3310 3106; GX 28455 3106 28322;
GX 28322 232 1648; GX 1651 1648 12202; GX 2979 3035 3117; GX 19368 3117 28331; GX 28331 255 1639; GI 3035 3126;
GX 3126 28452 3127; GX 3126 28451 3123; GX 3128 3127 28335; GX 28335 251 1635; GX 3126 28449 3119; GX 3120 3119 28332;
GX 28332 254 1638; GX 3310 28436 3313; GX 3043 28437 3307; GX 3307 3306 2959; GX 2959 2989 28311; GX 28311 227 1659;
GX 3317 3316 2955; GX 18611 18633 18610; GX 18609 18610 18608; GI 18608 18657; GX 18657 18653 28457; GX 28450 28457 2985;
GX 2980 2985 3068; GX 28436 3068 28317; GX 28317 237 1653; GX 1648 1653 12201; GX 1653 1651 12204; GX 1652 1653 19559;
GX 28457 28449 3108; GX 3109 3108 28325; GX 28325 245 1645; GX 1640 1645 12131; GX 1645 1643 12134; GX 1644 1645 19627;
GX 3122 2985 3124; GX 3124 3123 28334; GX 28334 252 1636; GX 1638 1636 19711; GX 28457 3311 3312; GX 3313 3312 2957;
GX 2957 2987 28310; GX 28310 228 1660; GA 13140 13181 13118; GX 13118 13120 18612; GX 18612 18613 18656; GX 18656 18646 13185;
GI 13187 28456; GX 28456 19368 3314; GX 28449 28456 2983; GX 2955 2983 28308; GX 28308 230 1662; GX 1662 1660 19507;
GX 2985 28456 3131; GX 3131 3130 28309; GX 28309 229 1661; GX 1661 19507 19509; GX 1662 1661 19528; GX 1661 1659 12274;
GX 1660 1661 19491; GX 2982 2983 3121; GX 28450 3121 28333; GX 28333 253 1637; GX 1637 19711 19713; GX 1634 19713 12048;
GX 1638 1637 19732; GX 1637 1635 12064; GX 1636 1637 19695; GX 2979 2983 3252].
(** aes128_with_ks.txt:2254-2503 *)
Definition aes_enc_file_g9 : list gate := [
GX 3252 3251 3253; GI 3253 28316; GX 28316 238 1654; GX 1648 1654 12203; GX 1654 1652 19575; GX 1653 19575 19577;
GX 1654 1653 19596; GX 12202 19596 12198; GX 19575 12202 12194; GX 1655 12194 12193; GA 12198 12194 12187; GX 3315 3314 2956;
GX 2956 2980 28324; GX 28324 246 1646; GX 1640 1646 12133; GX 1646 1644 19643; GX 1645 19643 19645; GX 1646 1645 19664;
GX 12132 19664 12128; GX 19643 12132 12124; GX 1647 12124 12123; GA 12128 12124 12117; GI 13186 28461; GX 28454 28461 2992;
GX 2988 2992 3105; GX 2992 3044 3133; GX 28440 3105 28321; GX 28321 233 1649; GX 1649 19577 12191; GX 1651 1649 19578;
GX 12187 19578 19583; GX 1655 1649 19584; GX 19584 19577 12190; GA 12202 12191 12181; GX 12181 19577 19579; GX 19583 19579 19589;
GX 3112 28461 3114; GX 3114 3113 28329; GX 28329 241 1641; GX 1641 19645 12121; GX 1643 1641 19646; GX 12117 19646 19651;
GX 1647 1641 19652; GX 19652 19645 12120; GA 12132 12121 12111; GX 12111 19645 19647; GX 19651 19647 19657; GX 28441 3133 28338;
GX 28338 248 1632; GX 1632 1638 12063; GX 1632 1637 12061; GX 1634 1632 19712; GX 19712 12064 12049; GX 1635 1632 12062;
GX 12062 19732 12058; GX 19711 12062 12054; GX 1639 12054 12053; GA 12058 12054 12047; GA 12063 12048 12044; GX 12044 19712 19718;
GA 12064 12049 12040; GX 28462 28461 3217; GX 3218 3217 28314; GX 28314 224 1656; GX 1656 1662 12273; GX 1656 1661 12271;
GX 1659 1656 12272; GX 12272 19528 12268; GX 19507 12272 12264; GX 1663 12264 12263; GA 12268 12264 12257; GI 2992 3196;
GX 3196 28439 3198; GI 13185 28460; GX 28453 28460 2991; GX 2986 2991 3104; GX 28439 3104 28320; GX 28320 234 1650;
GX 1650 19577 12188; GX 1650 1648 19576; GX 19576 12204 12189; GX 1650 19584 12200; GX 1654 12200 12196; GX 19576 19584 12197;
GX 19596 12197 12195; GX 19578 19576 19544; GX 19575 19544 12192; GX 19578 1650 19543; GX 1655 19543 12199; GA 12195 12193 12186;
GA 12199 1655 12185; GA 12203 12188 12184; GX 12184 19576 19582; GA 12196 12200 12183; GA 12197 12190 12182; GA 12204 12189 12180;
GX 12180 12186 19588; GX 1648 19588 19603; GX 19603 19589 12178; GX 12180 12181 19558; GX 19558 19559 19610; GX 19610 19582 19607;
GX 12183 19607 12177; GA 12201 12192 12179; GX 12179 12182 19581; GX 12179 12185 19587; GX 12180 19581 19601; GX 1650 19587 19602;
GX 19582 19581 19567; GX 19579 19567 12176; GX 19588 19587 19566; GX 19576 19566 12175; GX 12183 19601 19557; GX 1654 19557 12170;
GA 12178 12177 12174; GX 12174 12176 12173; GX 12174 19602 19556; GX 19589 19556 12169; GA 12175 12173 12172; GX 12172 19589 19604;
GX 19602 19604 12171; GX 12184 12172 19551; GX 19583 19551 19547; GX 1648 19547 19550; GX 1650 19547 19546; GA 12169 12170 12168;
GX 12168 12176 12167; GX 12174 12168 12166; GX 12168 19601 19555; GX 12168 12185 19554; GX 19554 12182 19549; GX 19549 19550 12159;
GA 12176 12166 12165; GX 12165 12173 12163; GX 12165 12183 19586; GX 19586 19607 12157; GX 1654 19586 19594; GX 19594 19555 12164;
GA 12171 12163 12162; GX 12162 12175 12161; GX 12162 12186 19553; GX 19594 19553 19545; GX 19576 19545 19552; GX 19549 19552 12160;
GX 12162 19604 19548; GX 19603 19548 12158; GX 19545 19546 12156; GA 12157 12194 12155; GA 12164 12193 12154; GA 12167 1655 12153;
GA 12158 12188 12152; GX 12152 12155 19592; GI 19592 19563; GA 12161 12200 12151; GA 12171 12190 12150; GX 12150 12153 19599;
GX 19599 19563 19574; GA 12159 12191 12149; GX 12149 12155 19597; GX 12149 12152 19568; GA 12156 12189 12148; GX 12148 12151 19591;
GX 12148 19597 19570; GA 12160 12192 12147; GA 12157 12198 12146; GA 12164 12195 12145; GA 12167 12199 12144; GA 12158 12203 12143;
GX 12143 12147 19593; GX 19591 19593 19605; GX 12150 19605 19571; GX 19597 19593 19565; GA 12161 12196 12142; GA 12171 12197 12141;
GX 12141 12153 19598; GX 12144 19598 19561; GA 12159 12202 12140; GA 12156 12204 12139; GX 12139 12140 19580; GX 12145 19580 19585;
GX 12146 19585 19590; GX 12154 19590 19595; GX 12142 19580 19600; GX 12151 19595 19606; GX 19592 19606 30421; GX 19599 19606 30420;
GX 12143 19600 19573; GX 19573 19574 19572; GX 19600 19571 12207; GX 19595 19570 12206; GX 19591 19590 19569; GX 19568 19569 30424;
GX 19563 19585 19562; GX 19561 19562 19560; GI 19560 19609; GX 19609 19605 30419; GA 12160 12201 12138; GX 12138 12140 19564;
GX 19564 19565 19608; GX 19608 19598 12205; GI 12207 30418; GI 12206 30423; GI 12205 30422; GX 2988 28460 3111;
GX 3111 3110 28328; GX 28328 242 1642; GX 1642 19645 12118; GX 1642 1640 19644; GX 19644 12134 12119; GX 1642 19652 12130;
GX 1646 12130 12126; GX 19644 19652 12127; GX 19664 12127 12125; GX 19646 19644 19612; GX 19643 19612 12122; GX 19646 1642 19611;
GX 1647 19611 12129; GA 12125 12123 12116; GA 12129 1647 12115; GA 12133 12118 12114; GX 12114 19644 19650; GA 12126 12130 12113;
GA 12127 12120 12112; GA 12134 12119 12110; GX 12110 12116 19656; GX 1640 19656 19671; GX 19671 19657 12108; GX 12110 12111 19626;
GX 19626 19627 19678; GX 19678 19650 19675; GX 12113 19675 12107; GA 12131 12122 12109; GX 12109 12112 19649; GX 12109 12115 19655;
GX 12110 19649 19669; GX 1642 19655 19670; GX 19650 19649 19635; GX 19647 19635 12106; GX 19656 19655 19634; GX 19644 19634 12105;
GX 12113 19669 19625; GX 1646 19625 12100; GA 12108 12107 12104; GX 12104 12106 12103; GX 12104 19670 19624; GX 19657 19624 12099;
GA 12105 12103 12102; GX 12102 19657 19672; GX 19670 19672 12101; GX 12114 12102 19619].
(** aes128_with_ks.txt:2504-2753 *)
Definition aes_enc_file_g10 : list gate := [
GX 19651 19619 19615; GX 1640 19615 19618; GX 1642 19615 19614; GA 12099 12100 12098; GX 12098 12106 12097; GX 12104 12098 12096;
GX 12098 19669 19623; GX 12098 12115 19622; GX 19622 12112 19617; GX 19617 19618 12089; GA 12106 12096 12095; GX 12095 12103 12093;
GX 12095 12113 19654; GX 19654 19675 12087; GX 1646 19654 19662; GX 19662 19623 12094; GA 12101 12093 12092; GX 12092 12105 12091;
GX 12092 12116 19621; GX 19662 19621 19613; GX 19644 19613 19620; GX 19617 19620 12090; GX 12092 19672 19616; GX 19671 19616 12088;
GX 19613 19614 12086; GA 12087 12124 12085; GA 12094 12123 12084; GA 12097 1647 12083; GA 12088 12118 12082; GX 12082 12085 19660;
GI 19660 19631; GA 12091 12130 12081; GA 12101 12120 12080; GX 12080 12083 19667; GX 19667 19631 19642; GA 12089 12121 12079;
GX 12079 12085 19665; GX 12079 12082 19636; GA 12086 12119 12078; GX 12078 12081 19659; GX 12078 19665 19638; GA 12090 12122 12077;
GA 12087 12128 12076; GA 12094 12125 12075; GA 12097 12129 12074; GA 12088 12133 12073; GX 12073 12077 19661; GX 19659 19661 19673;
GX 12080 19673 19639; GX 19665 19661 19633; GA 12091 12126 12072; GA 12101 12127 12071; GX 12071 12083 19666; GX 12074 19666 19629;
GA 12089 12132 12070; GA 12086 12134 12069; GX 12069 12070 19648; GX 12075 19648 19653; GX 12076 19653 19658; GX 12084 19658 19663;
GX 12072 19648 19668; GX 12081 19663 19674; GX 19660 19674 30400; GX 19667 19674 30399; GX 12073 19668 19641; GX 19641 19642 19640;
GX 19668 19639 12137; GX 19663 19638 12136; GX 19659 19658 19637; GX 19636 19637 30403; GX 19631 19653 19630; GX 19629 19630 19628;
GI 19628 19677; GX 19677 19673 30398; GA 12090 12131 12068; GX 12068 12070 19632; GX 19632 19633 19676; GX 19676 19666 12135;
GI 12137 30397; GI 12136 30402; GI 12135 30401; GI 2991 3178; GX 28460 28447 3197; GX 3198 3197 3199;
GI 3199 28313; GX 28313 225 1657; GX 1657 19509 12261; GX 1659 1657 19510; GX 12257 19510 19515; GX 1663 1657 19516;
GX 19516 19509 12260; GA 12272 12261 12251; GX 12251 19509 19511; GX 19515 19511 19521; GX 3178 28438 3181; GX 2990 2991 3132;
GX 28454 3132 28337; GX 28337 249 1633; GX 1633 19713 12051; GX 1635 1633 19714; GX 12047 19714 19719; GX 1639 1633 19720;
GX 19720 19713 12050; GX 1634 19720 12060; GX 1638 12060 12056; GX 19712 19720 12057; GX 19732 12057 12055; GX 19714 19712 19680;
GX 19711 19680 12052; GX 19714 1634 19679; GX 1639 19679 12059; GA 12055 12053 12046; GX 12040 12046 19724; GX 1632 19724 19739;
GA 12059 1639 12045; GA 12056 12060 12043; GA 12057 12050 12042; GA 12062 12051 12041; GX 12041 19713 19715; GX 19719 19715 19725;
GX 19739 19725 12038; GX 12040 12041 19694; GX 19694 19695 19746; GX 19746 19718 19743; GX 12043 19743 12037; GA 12061 12052 12039;
GX 12039 12042 19717; GX 12039 12045 19723; GX 12040 19717 19737; GX 1634 19723 19738; GX 19718 19717 19703; GX 19715 19703 12036;
GX 19724 19723 19702; GX 19712 19702 12035; GX 12043 19737 19693; GX 1638 19693 12030; GA 12038 12037 12034; GX 12034 12036 12033;
GX 12034 19738 19692; GX 19725 19692 12029; GA 12035 12033 12032; GX 12032 19725 19740; GX 19738 19740 12031; GX 12044 12032 19687;
GX 19719 19687 19683; GX 1632 19683 19686; GX 1634 19683 19682; GA 12029 12030 12028; GX 12028 12036 12027; GX 12034 12028 12026;
GX 12028 19737 19691; GX 12028 12045 19690; GX 19690 12042 19685; GX 19685 19686 12019; GA 12036 12026 12025; GX 12025 12033 12023;
GX 12025 12043 19722; GX 19722 19743 12017; GX 1638 19722 19730; GX 19730 19691 12024; GA 12031 12023 12022; GX 12022 12035 12021;
GX 12022 12046 19689; GX 19730 19689 19681; GX 19712 19681 19688; GX 19685 19688 12020; GX 12022 19740 19684; GX 19739 19684 12018;
GX 19681 19682 12016; GA 12017 12054 12015; GA 12024 12053 12014; GA 12027 1639 12013; GA 12018 12048 12012; GX 12012 12015 19728;
GI 19728 19699; GA 12021 12060 12011; GA 12031 12050 12010; GX 12010 12013 19735; GX 19735 19699 19710; GA 12019 12051 12009;
GX 12009 12015 19733; GX 12009 12012 19704; GA 12016 12049 12008; GX 12008 12011 19727; GX 12008 19733 19706; GA 12020 12052 12007;
GA 12017 12058 12006; GA 12024 12055 12005; GA 12027 12059 12004; GA 12018 12063 12003; GX 12003 12007 19729; GX 19727 19729 19741;
GX 12010 19741 19707; GX 19733 19729 19701; GA 12021 12056 12002; GA 12031 12057 12001; GX 12001 12013 19734; GX 12004 19734 19697;
GA 12019 12062 12000; GA 12016 12064 11999; GX 11999 12000 19716; GX 12005 19716 19721; GX 12006 19721 19726; GX 12014 19726 19731;
GX 12002 19716 19736; GX 12011 19731 19742; GX 19728 19742 30379; GX 19735 19742 30378; GX 12003 19736 19709; GX 19709 19710 19708;
GX 19736 19707 12067; GX 19731 19706 12066; GX 19727 19726 19705; GX 19704 19705 30382; GX 19699 19721 19698; GX 19697 19698 19696;
GI 19696 19745; GX 19745 19741 30377; GA 12020 12061 11998; GX 11998 12000 19700; GX 19700 19701 19744; GX 19744 19734 12065;
GI 12067 30376; GI 12066 30381; GI 12065 30380; GX 3181 3180 28312; GX 28312 226 1658; GX 1658 19509 12258;
GX 1658 1656 19508; GX 19508 12274 12259; GX 1658 19516 12270; GX 1662 12270 12266; GX 19508 19516 12267; GX 19528 12267 12265;
GX 19510 19508 19476; GX 19507 19476 12262; GX 19510 1658 19475; GX 1663 19475 12269; GA 12265 12263 12256; GA 12269 1663 12255;
GA 12273 12258 12254; GX 12254 19508 19514; GA 12266 12270 12253; GA 12267 12260 12252; GA 12274 12259 12250; GX 12250 12256 19520;
GX 1656 19520 19535; GX 19535 19521 12248; GX 12250 12251 19490; GX 19490 19491 19542].
(** aes128_with_ks.txt:2754-3003 *)
Definition aes_enc_file_g11 : list gate := [
GX 19542 19514 19539; GX 12253 19539 12247; GA 12271 12262 12249; GX 12249 12252 19513; GX 12249 12255 19519; GX 12250 19513 19533;
GX 1658 19519 19534; GX 19514 19513 19499; GX 19511 19499 12246; GX 19520 19519 19498; GX 19508 19498 12245; GX 12253 19533 19489;
GX 1662 19489 12240; GA 12248 12247 12244; GX 12244 12246 12243; GX 12244 19534 19488; GX 19521 19488 12239; GA 12245 12243 12242;
GX 12242 19521 19536; GX 19534 19536 12241; GX 12254 12242 19483; GX 19515 19483 19479; GX 1656 19479 19482; GX 1658 19479 19478;
GA 12239 12240 12238; GX 12238 12246 12237; GX 12244 12238 12236; GX 12238 19533 19487; GX 12238 12255 19486; GX 19486 12252 19481;
GX 19481 19482 12229; GA 12246 12236 12235; GX 12235 12243 12233; GX 12235 12253 19518; GX 19518 19539 12227; GX 1662 19518 19526;
GX 19526 19487 12234; GA 12241 12233 12232; GX 12232 12245 12231; GX 12232 12256 19485; GX 19526 19485 19477; GX 19508 19477 19484;
GX 19481 19484 12230; GX 12232 19536 19480; GX 19535 19480 12228; GX 19477 19478 12226; GA 12227 12264 12225; GA 12234 12263 12224;
GA 12237 1663 12223; GA 12228 12258 12222; GX 12222 12225 19524; GI 19524 19495; GA 12231 12270 12221; GA 12241 12260 12220;
GX 12220 12223 19531; GX 19531 19495 19506; GA 12229 12261 12219; GX 12219 12225 19529; GX 12219 12222 19500; GA 12226 12259 12218;
GX 12218 12221 19523; GX 12218 19529 19502; GA 12230 12262 12217; GA 12227 12268 12216; GA 12234 12265 12215; GA 12237 12269 12214;
GA 12228 12273 12213; GX 12213 12217 19525; GX 19523 19525 19537; GX 12220 19537 19503; GX 19529 19525 19497; GA 12231 12266 12212;
GA 12241 12267 12211; GX 12211 12223 19530; GX 12214 19530 19493; GA 12229 12272 12210; GA 12226 12274 12209; GX 12209 12210 19512;
GX 12215 19512 19517; GX 12216 19517 19522; GX 12224 19522 19527; GX 12212 19512 19532; GX 12221 19527 19538; GX 19524 19538 30442;
GX 19531 19538 30441; GX 12213 19532 19505; GX 19505 19506 19504; GX 19532 19503 12277; GX 19527 19502 12276; GX 19523 19522 19501;
GX 19500 19501 30445; GX 19495 19517 19494; GX 19493 19494 19492; GI 19492 19541; GX 19541 19537 30440; GA 12230 12271 12208;
GX 12208 12210 19496; GX 19496 19497 19540; GX 19540 19530 12275; GI 12277 30439; GI 12276 30444; GI 12275 30443;
GX 1768 1774 13253; GX 1768 1773 13251; GX 1774 1772 18555; GX 1770 1768 18556; GX 1773 18555 18557; GX 1769 18557 13241;
GX 1770 18557 13238; GX 1771 1769 18558; GX 1775 1769 18564; GX 18564 18557 13240; GX 1771 1768 13252; GX 1774 1773 18576;
GX 13252 18576 13248; GX 1773 1771 13254; GX 18556 13254 13239; GX 1770 18564 13250; GX 1774 13250 13246; GX 18556 18564 13247;
GX 18576 13247 13245; GX 18555 13252 13244; GX 1775 13244 13243; GX 1772 1773 18539; GX 18558 18556 18524; GX 18555 18524 13242;
GX 18558 1770 18523; GX 1775 18523 13249; GA 13248 13244 13237; GX 13237 18558 18563; GA 13245 13243 13236; GA 13249 1775 13235;
GA 13253 13238 13234; GX 13234 18556 18562; GA 13246 13250 13233; GA 13247 13240 13232; GA 13252 13241 13231; GX 13231 18557 18559;
GX 18563 18559 18569; GA 13254 13239 13230; GX 13230 13236 18568; GX 1768 18568 18583; GX 18583 18569 13228; GX 13230 13231 18538;
GX 18538 18539 18590; GX 18590 18562 18587; GX 13233 18587 13227; GA 13251 13242 13229; GX 13229 13232 18561; GX 13229 13235 18567;
GX 13230 18561 18581; GX 1770 18567 18582; GX 18562 18561 18547; GX 18559 18547 13226; GX 18568 18567 18546; GX 18556 18546 13225;
GX 13233 18581 18537; GX 1774 18537 13220; GA 13228 13227 13224; GX 13224 13226 13223; GX 13224 18582 18536; GX 18569 18536 13219;
GA 13225 13223 13222; GX 13222 18569 18584; GX 18582 18584 13221; GX 13234 13222 18531; GX 18563 18531 18527; GX 1768 18527 18530;
GX 1770 18527 18526; GA 13219 13220 13218; GX 13218 13226 13217; GX 13224 13218 13216; GX 13218 18581 18535; GX 13218 13235 18534;
GX 18534 13232 18529; GX 18529 18530 13209; GA 13226 13216 13215; GX 13215 13223 13213; GX 13215 13233 18566; GX 18566 18587 13207;
GX 1774 18566 18574; GX 18574 18535 13214; GA 13221 13213 13212; GX 13212 13225 13211; GX 13212 13236 18533; GX 18574 18533 18525;
GX 18556 18525 18532; GX 18529 18532 13210; GX 13212 18584 18528; GX 18583 18528 13208; GX 18525 18526 13206; GA 13207 13244 13205;
GA 13214 13243 13204; GA 13217 1775 13203; GA 13208 13238 13202; GX 13202 13205 18572; GI 18572 18543; GA 13211 13250 13201;
GA 13221 13240 13200; GX 13200 13203 18579; GX 18579 18543 18554; GA 13209 13241 13199; GX 13199 13205 18577; GX 13199 13202 18548;
GA 13206 13239 13198; GX 13198 13201 18571; GX 13198 18577 18550; GA 13210 13242 13197; GA 13207 13248 13196; GA 13214 13245 13195;
GA 13217 13249 13194; GA 13208 13253 13193; GX 13193 13197 18573; GX 18571 18573 18585; GX 13200 18585 18551; GX 18577 18573 18545;
GA 13211 13246 13192; GA 13221 13247 13191; GX 13191 13203 18578; GX 13194 18578 18541; GA 13209 13252 13190; GA 13206 13254 13189;
GX 13189 13190 18560; GX 13195 18560 18565; GX 13196 18565 18570; GX 13204 18570 18575; GX 13192 18560 18580; GX 13201 18575 18586;
GX 18572 18586 28480; GX 28480 28487 3003; GX 2965 3003 28343; GX 28343 195 1627; GX 3175 3003 3154; GX 3002 3003 3186;
GX 3154 3153 28351; GX 28351 203 1619; GX 28480 28473 3162; GX 3163 3162 28360; GX 28360 210 1610; GX 18579 18586 28479;
GX 28479 28486 3001; GX 2963 3001 28342; GX 28342 196 1628; GX 3000 3001 3184; GX 3159 3001 3151; GX 3151 3150 28350;
GX 28350 204 1620; GX 28479 3294 3286; GX 13193 18580 18553; GX 18553 18554 18552].
(** aes128_with_ks.txt:3004-3253 *)
Definition aes_enc_file_g12 : list gate := [
GX 18552 19300 3297; GX 18552 18892 2995; GX 2995 3045 3134; GX 19300 3134 28339; GX 28339 199 1631; GX 2995 3038 3145;
GX 18960 3145 28347; GX 28347 207 1623; GX 3171 2995 3173; GX 18580 18551 13257; GX 18575 18550 13256; GX 18571 18570 18549;
GX 18548 18549 28483; GX 28476 28483 3046; GX 28483 28490 3037; GX 3046 28490 3144; GX 2993 3037 3170; GX 3144 3143 28346;
GX 28346 192 1624; GX 1627 1624 11992; GX 28483 3157 28354; GX 28354 200 1616; GX 1619 1616 11922; GX 2993 3046 3158;
GX 18892 3158 28355; GX 28355 215 1615; GX 18552 3170 28363; GX 28363 223 1607; GI 3037 3182; GX 3182 28480 3183;
GX 3184 3183 3185; GI 3185 28367; GX 28367 219 1603; GX 3182 28479 3176; GX 3046 28484 3298; GX 3298 3297 2962;
GX 2962 2994 28356; GX 28356 214 1614; GI 3046 3290; GX 3290 28486 3293; GX 3290 28487 3287; GX 3287 3286 2966;
GX 2966 3000 28359; GX 28359 211 1611; GX 18543 18565 18542; GX 18541 18542 18540; GI 18540 18589; GX 18589 18585 28478;
GX 28478 3291 3292; GX 28478 28485 2999; GX 3293 3292 2964; GX 2964 2998 28358; GX 28358 212 1612; GX 1614 1612 19915;
GX 2999 28484 3136; GX 3136 3135 3137; GI 3137 28341; GX 28341 197 1629; GX 1624 1629 11991; GX 1629 1627 11994;
GX 1628 1629 19763; GX 3175 2999 3177; GX 2994 2999 3149; GX 28464 3149 28349; GX 28349 205 1621; GX 1616 1621 11921;
GX 1621 1619 11924; GX 1620 1621 19831; GX 3177 3176 28366; GX 28366 220 1604; GA 13210 13251 13188; GX 13188 13190 18544;
GX 18544 18545 18588; GX 18588 18578 13255; GI 13257 28477; GX 28477 28484 2997; GX 2961 2997 28340; GX 28340 198 1630;
GX 1624 1630 11993; GX 1630 1628 19779; GX 1629 19779 19781; GX 1630 1629 19800; GX 11992 19800 11988; GX 19779 11992 11984;
GX 1631 11984 11983; GA 11988 11984 11977; GX 28477 3300 3160; GX 2996 2997 3174; GX 3161 3160 28357; GX 28357 213 1613;
GX 1613 19915 19917; GX 1610 19917 11838; GX 1614 1613 19936; GX 1613 1611 11854; GX 1612 1613 19899; GX 28478 3174 28365;
GX 28365 221 1605; GX 1605 1603 11784; GX 1604 1605 19967; GX 3146 2997 3148; GX 3148 3147 28348; GX 28348 206 1622;
GX 1616 1622 11923; GX 1622 1620 19847; GX 1621 19847 19849; GX 1622 1621 19868; GX 11922 19868 11918; GX 19847 11922 11914;
GX 1623 11914 11913; GA 11918 11914 11907; GX 3182 28477 3172; GX 3173 3172 28364; GX 28364 222 1606; GX 1606 1604 19983;
GX 1605 19983 19985; GX 1606 1605 20004; GI 13256 28482; GX 28482 28489 3006; GX 3006 3046 3188; GX 28469 3188 28370;
GX 28370 216 1600; GX 1600 1606 11783; GX 1600 1605 11781; GX 1603 1600 11782; GX 11782 20004 11778; GX 19983 11782 11774;
GX 1607 11774 11773; GA 11778 11774 11767; GX 3045 28482 3169; GX 3169 3168 28362; GX 28362 208 1608; GX 1608 1614 11853;
GX 1608 1613 11851; GX 1610 1608 19916; GX 19916 11854 11839; GX 1611 1608 11852; GX 11852 19936 11848; GX 19915 11852 11844;
GX 1615 11844 11843; GA 11848 11844 11837; GA 11853 11838 11834; GX 11834 19916 19922; GA 11854 11839 11830; GX 3006 28488 3142;
GX 3002 3006 3156; GX 28468 3156 28353; GX 28353 201 1617; GX 1617 19849 11911; GX 1619 1617 19850; GX 11907 19850 19855;
GX 1623 1617 19856; GX 19856 19849 11910; GA 11922 11911 11901; GX 11901 19849 19851; GX 19855 19851 19861; GX 3142 3141 28345;
GX 28345 193 1625; GX 1625 19781 11981; GX 1627 1625 19782; GX 11977 19782 19787; GX 1631 1625 19788; GX 19788 19781 11980;
GA 11992 11981 11971; GX 11971 19781 19783; GX 19787 19783 19793; GI 13255 28481; GX 28481 28488 3005; GX 3000 3005 3155;
GX 3004 3005 3187; GX 28482 3187 28369; GX 28369 217 1601; GX 1601 19985 11771; GX 1603 1601 19986; GX 11767 19986 19991;
GX 1607 1601 19992; GX 19992 19985 11770; GA 11782 11771 11761; GX 11761 19985 19987; GX 19991 19987 19997; GX 28481 3186 28368;
GX 28368 218 1602; GX 1602 19985 11768; GX 1602 1600 19984; GX 19984 11784 11769; GX 1602 19992 11780; GX 1606 11780 11776;
GX 19984 19992 11777; GX 20004 11777 11775; GX 19986 19984 19952; GX 19983 19952 11772; GX 19986 1602 19951; GX 1607 19951 11779;
GA 11775 11773 11766; GA 11779 1607 11765; GA 11783 11768 11764; GX 11764 19984 19990; GA 11776 11780 11763; GA 11777 11770 11762;
GA 11784 11769 11760; GX 11760 11766 19996; GX 1600 19996 20011; GX 20011 19997 11758; GX 11760 11761 19966; GX 19966 19967 20018;
GX 20018 19990 20015; GX 11763 20015 11757; GA 11781 11772 11759; GX 11759 11762 19989; GX 11759 11765 19995; GX 11760 19989 20009;
GX 1602 19995 20010; GX 19990 19989 19975; GX 19987 19975 11756; GX 19996 19995 19974; GX 19984 19974 11755; GX 11763 20009 19965;
GX 1606 19965 11750; GA 11758 11757 11754; GX 11754 11756 11753; GX 11754 20010 19964; GX 19997 19964 11749; GA 11755 11753 11752;
GX 11752 19997 20012; GX 20010 20012 11751; GX 11764 11752 19959; GX 19991 19959 19955; GX 1600 19955 19958; GX 1602 19955 19954;
GA 11749 11750 11748; GX 11748 11756 11747; GX 11754 11748 11746; GX 11748 20009 19963; GX 11748 11765 19962; GX 19962 11762 19957;
GX 19957 19958 11739; GA 11756 11746 11745; GX 11745 11753 11743; GX 11745 11763 19994; GX 19994 20015 11737; GX 1606 19994 20002;
GX 20002 19963 11744; GA 11751 11743 11742; GX 11742 11755 11741; GX 11742 11766 19961; GX 20002 19961 19953; GX 19984 19953 19960;
GX 19957 19960 11740; GX 11742 20012 19956; GX 20011 19956 11738; GX 19953 19954 11736].
(** aes128_with_ks.txt:3254-3503 *)
Definition aes_enc_file_g13 : list gate := [
GA 11737 11774 11735; GA 11744 11773 11734; GA 11747 1607 11733; GA 11738 11768 11732; GX 11732 11735 20000; GI 20000 19971;
GA 11741 11780 11731; GA 11751 11770 11730; GX 11730 11733 20007; GX 20007 19971 19982; GA 11739 11771 11729; GX 11729 11735 20005;
GX 11729 11732 19976; GA 11736 11769 11728; GX 11728 11731 19999; GX 11728 20005 19978; GA 11740 11772 11727; GA 11737 11778 11726;
GA 11744 11775 11725; GA 11747 11779 11724; GA 11738 11783 11723; GX 11723 11727 20001; GX 19999 20001 20013; GX 11730 20013 19979;
GX 20005 20001 19973; GA 11741 11776 11722; GA 11751 11777 11721; GX 11721 11733 20006; GX 11724 20006 19969; GA 11739 11782 11720;
GA 11736 11784 11719; GX 11719 11720 19988; GX 11725 19988 19993; GX 11726 19993 19998; GX 11734 19998 20003; GX 11722 19988 20008;
GX 11731 20003 20014; GX 20000 20014 30407; GX 20007 20014 30406; GX 11723 20008 19981; GX 19981 19982 19980; GX 20008 19979 11787;
GX 20003 19978 11786; GX 19999 19998 19977; GX 19976 19977 30410; GX 19971 19993 19970; GX 19969 19970 19968; GI 19968 20017;
GX 20017 20013 30405; GA 11740 11781 11718; GX 11718 11720 19972; GX 19972 19973 20016; GX 20016 20006 11785; GI 11787 30404;
GI 11786 30409; GI 11785 30408; GI 3005 3138; GX 3138 28487 3140; GX 3140 3139 28344; GX 28344 194 1626;
GX 1626 19781 11978; GX 1626 1624 19780; GX 19780 11994 11979; GX 1626 19788 11990; GX 1630 11990 11986; GX 19780 19788 11987;
GX 19800 11987 11985; GX 19782 19780 19748; GX 19779 19748 11982; GX 19782 1626 19747; GX 1631 19747 11989; GA 11985 11983 11976;
GA 11989 1631 11975; GA 11993 11978 11974; GX 11974 19780 19786; GA 11986 11990 11973; GA 11987 11980 11972; GA 11994 11979 11970;
GX 11970 11976 19792; GX 1624 19792 19807; GX 19807 19793 11968; GX 11970 11971 19762; GX 19762 19763 19814; GX 19814 19786 19811;
GX 11973 19811 11967; GA 11991 11982 11969; GX 11969 11972 19785; GX 11969 11975 19791; GX 11970 19785 19805; GX 1626 19791 19806;
GX 19786 19785 19771; GX 19783 19771 11966; GX 19792 19791 19770; GX 19780 19770 11965; GX 11973 19805 19761; GX 1630 19761 11960;
GA 11968 11967 11964; GX 11964 11966 11963; GX 11964 19806 19760; GX 19793 19760 11959; GA 11965 11963 11962; GX 11962 19793 19808;
GX 19806 19808 11961; GX 11974 11962 19755; GX 19787 19755 19751; GX 1624 19751 19754; GX 1626 19751 19750; GA 11959 11960 11958;
GX 11958 11966 11957; GX 11964 11958 11956; GX 11958 19805 19759; GX 11958 11975 19758; GX 19758 11972 19753; GX 19753 19754 11949;
GA 11966 11956 11955; GX 11955 11963 11953; GX 11955 11973 19790; GX 19790 19811 11947; GX 1630 19790 19798; GX 19798 19759 11954;
GA 11961 11953 11952; GX 11952 11965 11951; GX 11952 11976 19757; GX 19798 19757 19749; GX 19780 19749 19756; GX 19753 19756 11950;
GX 11952 19808 19752; GX 19807 19752 11948; GX 19749 19750 11946; GA 11947 11984 11945; GA 11954 11983 11944; GA 11957 1631 11943;
GA 11948 11978 11942; GX 11942 11945 19796; GI 19796 19767; GA 11951 11990 11941; GA 11961 11980 11940; GX 11940 11943 19803;
GX 19803 19767 19778; GA 11949 11981 11939; GX 11939 11945 19801; GX 11939 11942 19772; GA 11946 11979 11938; GX 11938 11941 19795;
GX 11938 19801 19774; GA 11950 11982 11937; GA 11947 11988 11936; GA 11954 11985 11935; GA 11957 11989 11934; GA 11948 11993 11933;
GX 11933 11937 19797; GX 19795 19797 19809; GX 11940 19809 19775; GX 19801 19797 19769; GA 11951 11986 11932; GA 11961 11987 11931;
GX 11931 11943 19802; GX 11934 19802 19765; GA 11949 11992 11930; GA 11946 11994 11929; GX 11929 11930 19784; GX 11935 19784 19789;
GX 11936 19789 19794; GX 11944 19794 19799; GX 11932 19784 19804; GX 11941 19799 19810; GX 19796 19810 30358; GX 19803 19810 30357;
GX 11933 19804 19777; GX 19777 19778 19776; GX 19804 19775 11997; GX 19799 19774 11996; GX 19795 19794 19773; GX 19772 19773 30361;
GX 19767 19789 19766; GX 19765 19766 19764; GI 19764 19813; GX 19813 19809 30356; GA 11950 11991 11928; GX 11928 11930 19768;
GX 19768 19769 19812; GX 19812 19802 11995; GI 11997 30355; GI 11996 30360; GI 11995 30359; GX 28467 3155 28352;
GX 28352 202 1618; GX 1618 19849 11908; GX 1618 1616 19848; GX 19848 11924 11909; GX 1618 19856 11920; GX 1622 11920 11916;
GX 19848 19856 11917; GX 19868 11917 11915; GX 19850 19848 19816; GX 19847 19816 11912; GX 19850 1618 19815; GX 1623 19815 11919;
GA 11915 11913 11906; GA 11919 1623 11905; GA 11923 11908 11904; GX 11904 19848 19854; GA 11916 11920 11903; GA 11917 11910 11902;
GA 11924 11909 11900; GX 11900 11906 19860; GX 1616 19860 19875; GX 19875 19861 11898; GX 11900 11901 19830; GX 19830 19831 19882;
GX 19882 19854 19879; GX 11903 19879 11897; GA 11921 11912 11899; GX 11899 11902 19853; GX 11899 11905 19859; GX 11900 19853 19873;
GX 1618 19859 19874; GX 19854 19853 19839; GX 19851 19839 11896; GX 19860 19859 19838; GX 19848 19838 11895; GX 11903 19873 19829;
GX 1622 19829 11890; GA 11898 11897 11894; GX 11894 11896 11893; GX 11894 19874 19828; GX 19861 19828 11889; GA 11895 11893 11892;
GX 11892 19861 19876; GX 19874 19876 11891; GX 11904 11892 19823; GX 19855 19823 19819; GX 1616 19819 19822; GX 1618 19819 19818;
GA 11889 11890 11888; GX 11888 11896 11887; GX 11894 11888 11886; GX 11888 19873 19827; GX 11888 11905 19826; GX 19826 11902 19821;
GX 19821 19822 11879; GA 11896 11886 11885; GX 11885 11893 11883; GX 11885 11903 19858; GX 19858 19879 11877; GX 1622 19858 19866;
GX 19866 19827 11884; GA 11891 11883 11882; GX 11882 11895 11881; GX 11882 11906 19825].
(** aes128_with_ks.txt:3504-3753 *)
Definition aes_enc_file_g14 : list gate := [
GX 19866 19825 19817; GX 19848 19817 19824; GX 19821 19824 11880; GX 11882 19876 19820; GX 19875 19820 11878; GX 19817 19818 11876;
GA 11877 11914 11875; GA 11884 11913 11874; GA 11887 1623 11873; GA 11878 11908 11872; GX 11872 11875 19864; GI 19864 19835;
GA 11881 11920 11871; GA 11891 11910 11870; GX 11870 11873 19871; GX 19871 19835 19846; GA 11879 11911 11869; GX 11869 11875 19869;
GX 11869 11872 19840; GA 11876 11909 11868; GX 11868 11871 19863; GX 11868 19869 19842; GA 11880 11912 11867; GA 11877 11918 11866;
GA 11884 11915 11865; GA 11887 11919 11864; GA 11878 11923 11863; GX 11863 11867 19865; GX 19863 19865 19877; GX 11870 19877 19843;
GX 19869 19865 19837; GA 11881 11916 11862; GA 11891 11917 11861; GX 11861 11873 19870; GX 11864 19870 19833; GA 11879 11922 11860;
GA 11876 11924 11859; GX 11859 11860 19852; GX 11865 19852 19857; GX 11866 19857 19862; GX 11874 19862 19867; GX 11862 19852 19872;
GX 11871 19867 19878; GX 19864 19878 30449; GX 19871 19878 30448; GX 11863 19872 19845; GX 19845 19846 19844; GX 19872 19843 11927;
GX 19867 19842 11926; GX 19863 19862 19841; GX 19840 19841 30452; GX 19835 19857 19834; GX 19833 19834 19832; GI 19832 19881;
GX 19881 19877 30447; GA 11880 11921 11858; GX 11858 11860 19836; GX 19836 19837 19880; GX 19880 19870 11925; GI 11927 30446;
GI 11926 30451; GI 11925 30450; GX 28481 3165 3166; GX 3167 3166 28361; GX 28361 209 1609; GX 1609 19917 11841;
GX 1611 1609 19918; GX 11837 19918 19923; GX 1615 1609 19924; GX 19924 19917 11840; GX 1610 19924 11850; GX 1614 11850 11846;
GX 19916 19924 11847; GX 19936 11847 11845; GX 19918 19916 19884; GX 19915 19884 11842; GX 19918 1610 19883; GX 1615 19883 11849;
GA 11845 11843 11836; GX 11830 11836 19928; GX 1608 19928 19943; GA 11849 1615 11835; GA 11846 11850 11833; GA 11847 11840 11832;
GA 11852 11841 11831; GX 11831 19917 19919; GX 19923 19919 19929; GX 19943 19929 11828; GX 11830 11831 19898; GX 19898 19899 19950;
GX 19950 19922 19947; GX 11833 19947 11827; GA 11851 11842 11829; GX 11829 11832 19921; GX 11829 11835 19927; GX 11830 19921 19941;
GX 1610 19927 19942; GX 19922 19921 19907; GX 19919 19907 11826; GX 19928 19927 19906; GX 19916 19906 11825; GX 11833 19941 19897;
GX 1614 19897 11820; GA 11828 11827 11824; GX 11824 11826 11823; GX 11824 19942 19896; GX 19929 19896 11819; GA 11825 11823 11822;
GX 11822 19929 19944; GX 19942 19944 11821; GX 11834 11822 19891; GX 19923 19891 19887; GX 1608 19887 19890; GX 1610 19887 19886;
GA 11819 11820 11818; GX 11818 11826 11817; GX 11824 11818 11816; GX 11818 19941 19895; GX 11818 11835 19894; GX 19894 11832 19889;
GX 19889 19890 11809; GA 11826 11816 11815; GX 11815 11823 11813; GX 11815 11833 19926; GX 19926 19947 11807; GX 1614 19926 19934;
GX 19934 19895 11814; GA 11821 11813 11812; GX 11812 11825 11811; GX 11812 11836 19893; GX 19934 19893 19885; GX 19916 19885 19892;
GX 19889 19892 11810; GX 11812 19944 19888; GX 19943 19888 11808; GX 19885 19886 11806; GA 11807 11844 11805; GA 11814 11843 11804;
GA 11817 1615 11803; GA 11808 11838 11802; GX 11802 11805 19932; GI 19932 19903; GA 11811 11850 11801; GA 11821 11840 11800;
GX 11800 11803 19939; GX 19939 19903 19914; GA 11809 11841 11799; GX 11799 11805 19937; GX 11799 11802 19908; GA 11806 11839 11798;
GX 11798 11801 19931; GX 11798 19937 19910; GA 11810 11842 11797; GA 11807 11848 11796; GA 11814 11845 11795; GA 11817 11849 11794;
GA 11808 11853 11793; GX 11793 11797 19933; GX 19931 19933 19945; GX 11800 19945 19911; GX 19937 19933 19905; GA 11811 11846 11792;
GA 11821 11847 11791; GX 11791 11803 19938; GX 11794 19938 19901; GA 11809 11852 11790; GA 11806 11854 11789; GX 11789 11790 19920;
GX 11795 19920 19925; GX 11796 19925 19930; GX 11804 19930 19935; GX 11792 19920 19940; GX 11801 19935 19946; GX 19932 19946 30428;
GX 19939 19946 30427; GX 11793 19940 19913; GX 19913 19914 19912; GX 19940 19911 11857; GX 19935 19910 11856; GX 19931 19930 19909;
GX 19908 19909 30431; GX 19903 19925 19902; GX 19901 19902 19900; GI 19900 19949; GX 19949 19945 30426; GA 11810 11851 11788;
GX 11788 11790 19904; GX 19904 19905 19948; GX 19948 19938 11855; GI 11857 30425; GI 11856 30430; GI 11855 30429;
GX 1776 1782 13323; GX 1776 1781 13321; GX 1782 1780 18487; GX 1778 1776 18488; GX 1781 18487 18489; GX 1777 18489 13311;
GX 1778 18489 13308; GX 1779 1777 18490; GX 1783 1777 18496; GX 18496 18489 13310; GX 1779 1776 13322; GX 1782 1781 18508;
GX 13322 18508 13318; GX 1781 1779 13324; GX 18488 13324 13309; GX 1778 18496 13320; GX 1782 13320 13316; GX 18488 18496 13317;
GX 18508 13317 13315; GX 18487 13322 13314; GX 1783 13314 13313; GX 1780 1781 18471; GX 18490 18488 18456; GX 18487 18456 13312;
GX 18490 1778 18455; GX 1783 18455 13319; GA 13318 13314 13307; GX 13307 18490 18495; GA 13315 13313 13306; GA 13319 1783 13305;
GA 13323 13308 13304; GX 13304 18488 18494; GA 13316 13320 13303; GA 13317 13310 13302; GA 13322 13311 13301; GX 13301 18489 18491;
GX 18495 18491 18501; GA 13324 13309 13300; GX 13300 13306 18500; GX 1776 18500 18515; GX 18515 18501 13298; GX 13300 13301 18470;
GX 18470 18471 18522; GX 18522 18494 18519; GX 13303 18519 13297; GA 13321 13312 13299; GX 13299 13302 18493; GX 13299 13305 18499;
GX 13300 18493 18513; GX 1778 18499 18514; GX 18494 18493 18479; GX 18491 18479 13296; GX 18500 18499 18478; GX 18488 18478 13295;
GX 13303 18513 18469; GX 1782 18469 13290; GA 13298 13297 13294; GX 13294 13296 13293].
(** aes128_with_ks.txt:3754-4003 *)
Definition aes_enc_file_g15 : list gate := [
GX 13294 18514 18468; GX 18501 18468 13289; GA 13295 13293 13292; GX 13292 18501 18516; GX 18514 18516 13291; GX 13304 13292 18463;
GX 18495 18463 18459; GX 1776 18459 18462; GX 1778 18459 18458; GA 13289 13290 13288; GX 13288 13296 13287; GX 13294 13288 13286;
GX 13288 18513 18467; GX 13288 13305 18466; GX 18466 13302 18461; GX 18461 18462 13279; GA 13296 13286 13285; GX 13285 13293 13283;
GX 13285 13303 18498; GX 18498 18519 13277; GX 1782 18498 18506; GX 18506 18467 13284; GA 13291 13283 13282; GX 13282 13295 13281;
GX 13282 13306 18465; GX 18506 18465 18457; GX 18488 18457 18464; GX 18461 18464 13280; GX 13282 18516 18460; GX 18515 18460 13278;
GX 18457 18458 13276; GA 13277 13314 13275; GA 13284 13313 13274; GA 13287 1783 13273; GA 13278 13308 13272; GX 13272 13275 18504;
GI 18504 18475; GA 13281 13320 13271; GA 13291 13310 13270; GX 13270 13273 18511; GX 18511 18475 18486; GA 13279 13311 13269;
GX 13269 13275 18509; GX 13269 13272 18480; GA 13276 13309 13268; GX 13268 13271 18503; GX 13268 18509 18482; GA 13280 13312 13267;
GA 13277 13318 13266; GA 13284 13315 13265; GA 13287 13319 13264; GA 13278 13323 13263; GX 13263 13267 18505; GX 18503 18505 18517;
GX 13270 18517 18483; GX 18509 18505 18477; GA 13281 13316 13262; GA 13291 13317 13261; GX 13261 13273 18510; GX 13264 18510 18473;
GA 13279 13322 13260; GA 13276 13324 13259; GX 13259 13260 18492; GX 13265 18492 18497; GX 13266 18497 18502; GX 13274 18502 18507;
GX 13262 18492 18512; GX 13271 18507 18518; GX 18504 18518 28501; GX 28494 28501 3014; GX 3014 3019 3214; GX 28495 3214 28384;
GX 28384 170 1586; GX 28501 28493 3271; GX 3014 3015 3242; GX 3242 3241 3243; GI 3243 28399; GX 28399 187 1571;
GX 28508 28501 3223; GX 3272 3271 2971; GX 2971 3017 28375; GX 28375 163 1595; GX 18511 18518 28500; GX 28493 28500 3012;
GI 28500 3277; GX 3277 28492 3278; GI 3012 3237; GX 3237 3017 3213; GX 3279 3278 2969; GX 2969 3015 28374;
GX 28374 164 1596; GX 28507 3277 3269; GX 3237 3013 3239; GX 3239 3238 28398; GX 28398 188 1572; GX 13263 18512 18485;
GX 18485 18486 18484; GX 19232 18484 3007; GX 18484 3189 28371; GX 28371 167 1599; GI 3007 3205; GX 3205 3011 3207;
GX 18824 18484 3280; GX 3007 3039 3231; GX 18824 3231 28395; GX 28395 191 1575; GX 18512 18483 13327; GX 18507 18482 13326;
GX 18503 18502 18481; GX 18480 18481 28504; GX 28504 28511 3048; GX 28497 28504 3040; GX 3048 28518 3203; GI 3040 3211;
GX 3203 3202 28378; GX 28378 160 1592; GX 1595 1592 11712; GX 3009 3040 3204; GX 19232 3204 28379; GX 28379 175 1591;
GX 3211 28491 3206; GX 3207 3206 28380; GX 28380 174 1590; GX 3211 28493 3209; GX 3211 28494 3212; GX 3213 3212 28383;
GX 28383 171 1587; GI 3048 3273; GX 3048 28512 3281; GX 3007 3048 3219; GX 19164 3219 28387; GX 28387 183 1583;
GX 3020 3048 3246; GX 28497 3246 28402; GX 28402 184 1568; GX 1571 1568 11502; GX 3273 28515 3270; GX 3270 3269 2972;
GX 2972 3014 28391; GX 28391 179 1579; GX 3273 28514 3276; GX 3281 3280 2968; GX 18475 18497 18474; GX 18473 18474 18472;
GI 18472 18521; GX 18521 18517 28499; GX 28492 28499 3010; GI 28499 3274; GX 3274 28491 3190; GI 3010 3220;
GX 3220 3015 3210; GX 3210 3209 28382; GX 28382 172 1588; GX 1590 1588 20119; GX 3010 3011 3236; GX 28506 3236 28397;
GX 28397 189 1573; GX 1568 1573 11501; GX 1573 1571 11504; GX 1572 1573 20239; GX 3191 3190 3192; GI 3192 28373;
GX 28373 165 1597; GX 1592 1597 11711; GX 1597 1595 11714; GX 1596 1597 20035; GX 3220 28513 3222; GX 28506 3274 3275;
GX 3276 3275 2970; GX 2970 3012 28390; GX 28390 180 1580; GA 13280 13321 13258; GX 13258 13260 18476; GX 18476 18477 18520;
GX 18520 18510 13325; GI 13327 28498; GX 28491 28498 3008; GX 2968 3008 28388; GX 28388 182 1582; GX 1582 1580 20187;
GX 3008 3013 3208; GI 3008 3232; GX 28492 3208 28381; GX 28381 173 1589; GX 1589 20119 20121; GX 1586 20121 11628;
GX 1590 1589 20140; GX 1589 1587 11644; GX 1588 1589 20103; GX 3232 3009 3234; GX 3234 3233 28396; GX 28396 190 1574;
GX 1568 1574 11503; GX 1574 1572 20255; GX 1573 20255 20257; GX 1574 1573 20276; GX 11502 20276 11498; GX 20255 11502 11494;
GX 1575 11494 11493; GA 11498 11494 11487; GI 28498 3283; GX 3283 19232 3284; GX 3285 3284 2967; GX 2967 3011 28372;
GX 28372 166 1598; GX 1592 1598 11713; GX 1598 1596 20051; GX 1597 20051 20053; GX 1598 1597 20072; GX 11712 20072 11708;
GX 20051 11712 11704; GX 1599 11704 11703; GA 11708 11704 11697; GX 28505 3283 3221; GX 3222 3221 28389; GX 28389 181 1581;
GX 1581 20187 20189; GX 1582 1581 20208; GX 1581 1579 11574; GX 1580 1581 20171; GI 13326 28503; GX 28496 28503 3018;
GX 28503 28495 3200; GX 3201 3200 28377; GX 28377 161 1593; GX 1593 20053 11701; GX 1595 1593 20054; GX 11697 20054 20059;
GX 1599 1593 20060; GX 20060 20053 11700; GA 11712 11701 11691; GX 11691 20053 20055; GX 20059 20055 20065; GX 28504 28503 3229;
GX 3230 3229 28394; GX 28394 176 1576; GX 1576 1582 11573; GX 1576 1581 11571; GX 1579 1576 11572; GX 11572 20208 11568;
GX 20187 11572 11564; GX 1583 11564 11563; GA 11568 11564 11557; GX 3018 3019 3245; GX 28510 3245 28401; GX 28401 185 1569;
GX 1569 20257 11491; GX 1571 1569 20258; GX 11487 20258 20263; GX 1575 1569 20264].
(** aes128_with_ks.txt:4004-4253 *)
Definition aes_enc_file_g16 : list gate := [
GX 20264 20257 11490; GA 11502 11491 11481; GX 11481 20257 20259; GX 20263 20259 20269; GI 3018 3225; GX 3225 28517 3228;
GX 3225 3282 3216; GX 28511 3216 28386; GX 28386 168 1584; GX 1584 1590 11643; GX 1584 1589 11641; GX 1586 1584 20120;
GX 20120 11644 11629; GX 1587 1584 11642; GX 11642 20140 11638; GX 20119 11642 11634; GX 1591 11634 11633; GA 11638 11634 11627;
GA 11643 11628 11624; GX 11624 20120 20126; GA 11644 11629 11620; GI 13325 28502; GX 28495 28502 3016; GI 28502 3226;
GX 3226 28494 3194; GX 3195 3194 28376; GX 28376 162 1594; GX 1594 20053 11698; GX 1594 1592 20052; GX 20052 11714 11699;
GX 1594 20060 11710; GX 1598 11710 11706; GX 20052 20060 11707; GX 20072 11707 11705; GX 20054 20052 20020; GX 20051 20020 11702;
GX 20054 1594 20019; GX 1599 20019 11709; GA 11705 11703 11696; GA 11709 1599 11695; GA 11713 11698 11694; GX 11694 20052 20058;
GA 11706 11710 11693; GA 11707 11700 11692; GA 11714 11699 11690; GX 11690 11696 20064; GX 1592 20064 20079; GX 20079 20065 11688;
GX 11690 11691 20034; GX 20034 20035 20086; GX 20086 20058 20083; GX 11693 20083 11687; GA 11711 11702 11689; GX 11689 11692 20057;
GX 11689 11695 20063; GX 11690 20057 20077; GX 1594 20063 20078; GX 20058 20057 20043; GX 20055 20043 11686; GX 20064 20063 20042;
GX 20052 20042 11685; GX 11693 20077 20033; GX 1598 20033 11680; GA 11688 11687 11684; GX 11684 11686 11683; GX 11684 20078 20032;
GX 20065 20032 11679; GA 11685 11683 11682; GX 11682 20065 20080; GX 20078 20080 11681; GX 11694 11682 20027; GX 20059 20027 20023;
GX 1592 20023 20026; GX 1594 20023 20022; GA 11679 11680 11678; GX 11678 11686 11677; GX 11684 11678 11676; GX 11678 20077 20031;
GX 11678 11695 20030; GX 20030 11692 20025; GX 20025 20026 11669; GA 11686 11676 11675; GX 11675 11683 11673; GX 11675 11693 20062;
GX 20062 20083 11667; GX 1598 20062 20070; GX 20070 20031 11674; GA 11681 11673 11672; GX 11672 11685 11671; GX 11672 11696 20029;
GX 20070 20029 20021; GX 20052 20021 20028; GX 20025 20028 11670; GX 11672 20080 20024; GX 20079 20024 11668; GX 20021 20022 11666;
GA 11667 11704 11665; GA 11674 11703 11664; GA 11677 1599 11663; GA 11668 11698 11662; GX 11662 11665 20068; GI 20068 20039;
GA 11671 11710 11661; GA 11681 11700 11660; GX 11660 11663 20075; GX 20075 20039 20050; GA 11669 11701 11659; GX 11659 11665 20073;
GX 11659 11662 20044; GA 11666 11699 11658; GX 11658 11661 20067; GX 11658 20073 20046; GA 11670 11702 11657; GA 11667 11708 11656;
GA 11674 11705 11655; GA 11677 11709 11654; GA 11668 11713 11653; GX 11653 11657 20069; GX 20067 20069 20081; GX 11660 20081 20047;
GX 20073 20069 20041; GA 11671 11706 11652; GA 11681 11707 11651; GX 11651 11663 20074; GX 11654 20074 20037; GA 11669 11712 11650;
GA 11666 11714 11649; GX 11649 11650 20056; GX 11655 20056 20061; GX 11656 20061 20066; GX 11664 20066 20071; GX 11652 20056 20076;
GX 11661 20071 20082; GX 20068 20082 30386; GX 20075 20082 30385; GX 11653 20076 20049; GX 20049 20050 20048; GX 20076 20047 11717;
GX 20071 20046 11716; GX 20067 20066 20045; GX 20044 20045 30389; GX 20039 20061 20038; GX 20037 20038 20036; GI 20036 20085;
GX 20085 20081 30384; GA 11670 11711 11648; GX 11648 11650 20040; GX 20040 20041 20084; GX 20084 20074 11715; GI 11717 30383;
GI 11716 30388; GI 11715 30387; GX 28509 3226 3227; GX 3016 28516 3224; GX 3224 3223 28392; GX 28392 178 1578;
GX 1578 20189 11558; GX 1578 1576 20188; GX 20188 11574 11559; GA 11573 11558 11554; GX 11554 20188 20194; GA 11574 11559 11550;
GX 3228 3227 28393; GX 28393 177 1577; GX 1577 20189 11561; GX 1579 1577 20190; GX 11557 20190 20195; GX 1583 1577 20196;
GX 20196 20189 11560; GX 1578 20196 11570; GX 1582 11570 11566; GX 20188 20196 11567; GX 20208 11567 11565; GX 20190 20188 20156;
GX 20187 20156 11562; GX 20190 1578 20155; GX 1583 20155 11569; GA 11565 11563 11556; GX 11550 11556 20200; GX 1576 20200 20215;
GA 11569 1583 11555; GA 11566 11570 11553; GA 11567 11560 11552; GA 11572 11561 11551; GX 11551 20189 20191; GX 20195 20191 20201;
GX 20215 20201 11548; GX 11550 11551 20170; GX 20170 20171 20222; GX 20222 20194 20219; GX 11553 20219 11547; GA 11571 11562 11549;
GX 11549 11552 20193; GX 11549 11555 20199; GX 11550 20193 20213; GX 1578 20199 20214; GX 20194 20193 20179; GX 20191 20179 11546;
GX 20200 20199 20178; GX 20188 20178 11545; GX 11553 20213 20169; GX 1582 20169 11540; GA 11548 11547 11544; GX 11544 11546 11543;
GX 11544 20214 20168; GX 20201 20168 11539; GA 11545 11543 11542; GX 11542 20201 20216; GX 20214 20216 11541; GX 11554 11542 20163;
GX 20195 20163 20159; GX 1576 20159 20162; GX 1578 20159 20158; GA 11539 11540 11538; GX 11538 11546 11537; GX 11544 11538 11536;
GX 11538 20213 20167; GX 11538 11555 20166; GX 20166 11552 20161; GX 20161 20162 11529; GA 11546 11536 11535; GX 11535 11543 11533;
GX 11535 11553 20198; GX 20198 20219 11527; GX 1582 20198 20206; GX 20206 20167 11534; GA 11541 11533 11532; GX 11532 11545 11531;
GX 11532 11556 20165; GX 20206 20165 20157; GX 20188 20157 20164; GX 20161 20164 11530; GX 11532 20216 20160; GX 20215 20160 11528;
GX 20157 20158 11526; GA 11527 11564 11525; GA 11534 11563 11524; GA 11537 1583 11523; GA 11528 11558 11522; GX 11522 11525 20204;
GI 20204 20175; GA 11531 11570 11521; GA 11541 11560 11520; GX 11520 11523 20211; GX 20211 20175 20186; GA 11529 11561 11519;
GX 11519 11525 20209; GX 11519 11522 20180; GA 11526 11559 11518; GX 11518 11521 20203].
(** aes128_with_ks.txt:4254-4503 *)
Definition aes_enc_file_g17 : list gate := [
GX 11518 20209 20182; GA 11530 11562 11517; GA 11527 11568 11516; GA 11534 11565 11515; GA 11537 11569 11514; GA 11528 11573 11513;
GX 11513 11517 20205; GX 20203 20205 20217; GX 11520 20217 20183; GX 20209 20205 20177; GA 11531 11566 11512; GA 11541 11567 11511;
GX 11511 11523 20210; GX 11514 20210 20173; GA 11529 11572 11510; GA 11526 11574 11509; GX 11509 11510 20192; GX 11515 20192 20197;
GX 11516 20197 20202; GX 11524 20202 20207; GX 11512 20192 20212; GX 11521 20207 20218; GX 20204 20218 30456; GX 20211 20218 30455;
GX 11513 20212 20185; GX 20185 20186 20184; GX 20212 20183 11577; GX 20207 20182 11576; GX 20203 20202 20181; GX 20180 20181 30459;
GX 20175 20197 20174; GX 20173 20174 20172; GI 20172 20221; GX 20221 20217 30454; GA 11530 11571 11508; GX 11508 11510 20176;
GX 20176 20177 20220; GX 20220 20210 11575; GI 11577 30453; GI 11576 30458; GI 11575 30457; GX 3016 3020 3215;
GX 3016 3017 3244; GX 28509 3244 28400; GX 28400 186 1570; GX 1570 20257 11488; GX 1570 1568 20256; GX 20256 11504 11489;
GX 1570 20264 11500; GX 1574 11500 11496; GX 20256 20264 11497; GX 20276 11497 11495; GX 20258 20256 20224; GX 20255 20224 11492;
GX 20258 1570 20223; GX 1575 20223 11499; GA 11495 11493 11486; GA 11499 1575 11485; GA 11503 11488 11484; GX 11484 20256 20262;
GA 11496 11500 11483; GA 11497 11490 11482; GA 11504 11489 11480; GX 11480 11486 20268; GX 1568 20268 20283; GX 20283 20269 11478;
GX 11480 11481 20238; GX 20238 20239 20290; GX 20290 20262 20287; GX 11483 20287 11477; GA 11501 11492 11479; GX 11479 11482 20261;
GX 11479 11485 20267; GX 11480 20261 20281; GX 1570 20267 20282; GX 20262 20261 20247; GX 20259 20247 11476; GX 20268 20267 20246;
GX 20256 20246 11475; GX 11483 20281 20237; GX 1574 20237 11470; GA 11478 11477 11474; GX 11474 11476 11473; GX 11474 20282 20236;
GX 20269 20236 11469; GA 11475 11473 11472; GX 11472 20269 20284; GX 20282 20284 11471; GX 11484 11472 20231; GX 20263 20231 20227;
GX 1568 20227 20230; GX 1570 20227 20226; GA 11469 11470 11468; GX 11468 11476 11467; GX 11474 11468 11466; GX 11468 20281 20235;
GX 11468 11485 20234; GX 20234 11482 20229; GX 20229 20230 11459; GA 11476 11466 11465; GX 11465 11473 11463; GX 11465 11483 20266;
GX 20266 20287 11457; GX 1574 20266 20274; GX 20274 20235 11464; GA 11471 11463 11462; GX 11462 11475 11461; GX 11462 11486 20233;
GX 20274 20233 20225; GX 20256 20225 20232; GX 20229 20232 11460; GX 11462 20284 20228; GX 20283 20228 11458; GX 20225 20226 11456;
GA 11457 11494 11455; GA 11464 11493 11454; GA 11467 1575 11453; GA 11458 11488 11452; GX 11452 11455 20272; GI 20272 20243;
GA 11461 11500 11451; GA 11471 11490 11450; GX 11450 11453 20279; GX 20279 20243 20254; GA 11459 11491 11449; GX 11449 11455 20277;
GX 11449 11452 20248; GA 11456 11489 11448; GX 11448 11451 20271; GX 11448 20277 20250; GA 11460 11492 11447; GA 11457 11498 11446;
GA 11464 11495 11445; GA 11467 11499 11444; GA 11458 11503 11443; GX 11443 11447 20273; GX 20271 20273 20285; GX 11450 20285 20251;
GX 20277 20273 20245; GA 11461 11496 11442; GA 11471 11497 11441; GX 11441 11453 20278; GX 11444 20278 20241; GA 11459 11502 11440;
GA 11456 11504 11439; GX 11439 11440 20260; GX 11445 20260 20265; GX 11446 20265 20270; GX 11454 20270 20275; GX 11442 20260 20280;
GX 11451 20275 20286; GX 20272 20286 30435; GX 20279 20286 30434; GX 11443 20280 20253; GX 20253 20254 20252; GX 20280 20251 11507;
GX 20275 20250 11506; GX 20271 20270 20249; GX 20248 20249 30438; GX 20243 20265 20242; GX 20241 20242 20240; GI 20240 20289;
GX 20289 20285 30433; GA 11460 11501 11438; GX 11438 11440 20244; GX 20244 20245 20288; GX 20288 20278 11505; GI 11507 30432;
GI 11506 30437; GI 11505 30436; GX 28496 3215 28385; GX 28385 169 1585; GX 1585 20121 11631; GX 1587 1585 20122;
GX 11627 20122 20127; GX 1591 1585 20128; GX 20128 20121 11630; GX 1586 20128 11640; GX 1590 11640 11636; GX 20120 20128 11637;
GX 20140 11637 11635; GX 20122 20120 20088; GX 20119 20088 11632; GX 20122 1586 20087; GX 1591 20087 11639; GA 11635 11633 11626;
GX 11620 11626 20132; GX 1584 20132 20147; GA 11639 1591 11625; GA 11636 11640 11623; GA 11637 11630 11622; GA 11642 11631 11621;
GX 11621 20121 20123; GX 20127 20123 20133; GX 20147 20133 11618; GX 11620 11621 20102; GX 20102 20103 20154; GX 20154 20126 20151;
GX 11623 20151 11617; GA 11641 11632 11619; GX 11619 11622 20125; GX 11619 11625 20131; GX 11620 20125 20145; GX 1586 20131 20146;
GX 20126 20125 20111; GX 20123 20111 11616; GX 20132 20131 20110; GX 20120 20110 11615; GX 11623 20145 20101; GX 1590 20101 11610;
GA 11618 11617 11614; GX 11614 11616 11613; GX 11614 20146 20100; GX 20133 20100 11609; GA 11615 11613 11612; GX 11612 20133 20148;
GX 20146 20148 11611; GX 11624 11612 20095; GX 20127 20095 20091; GX 1584 20091 20094; GX 1586 20091 20090; GA 11609 11610 11608;
GX 11608 11616 11607; GX 11614 11608 11606; GX 11608 20145 20099; GX 11608 11625 20098; GX 20098 11622 20093; GX 20093 20094 11599;
GA 11616 11606 11605; GX 11605 11613 11603; GX 11605 11623 20130; GX 20130 20151 11597; GX 1590 20130 20138; GX 20138 20099 11604;
GA 11611 11603 11602; GX 11602 11615 11601; GX 11602 11626 20097; GX 20138 20097 20089; GX 20120 20089 20096; GX 20093 20096 11600;
GX 11602 20148 20092; GX 20147 20092 11598; GX 20089 20090 11596; GA 11597 11634 11595; GA 11604 11633 11594; GA 11607 1591 11593;
GA 11598 11628 11592; GX 11592 11595 20136; GI 20136 20107; GA 11601 11640 11591].
(** aes128_with_ks.txt:4504-4753 *)
Definition aes_enc_file_g18 : list gate := [
GA 11611 11630 11590; GX 11590 11593 20143; GX 20143 20107 20118; GA 11599 11631 11589; GX 11589 11595 20141; GX 11589 11592 20112;
GA 11596 11629 11588; GX 11588 11591 20135; GX 11588 20141 20114; GA 11600 11632 11587; GA 11597 11638 11586; GA 11604 11635 11585;
GA 11607 11639 11584; GA 11598 11643 11583; GX 11583 11587 20137; GX 20135 20137 20149; GX 11590 20149 20115; GX 20141 20137 20109;
GA 11601 11636 11582; GA 11611 11637 11581; GX 11581 11593 20142; GX 11584 20142 20105; GA 11599 11642 11580; GA 11596 11644 11579;
GX 11579 11580 20124; GX 11585 20124 20129; GX 11586 20129 20134; GX 11594 20134 20139; GX 11582 20124 20144; GX 11591 20139 20150;
GX 20136 20150 30365; GX 20143 20150 30364; GX 11583 20144 20117; GX 20117 20118 20116; GX 20144 20115 11647; GX 20139 20114 11646;
GX 20135 20134 20113; GX 20112 20113 30368; GX 20107 20129 20106; GX 20105 20106 20104; GI 20104 20153; GX 20153 20149 30363;
GA 11600 11641 11578; GX 11578 11580 20108; GX 20108 20109 20152; GX 20152 20142 11645; GI 11647 30362; GI 11646 30367;
GI 11645 30366; GX 1784 1790 13393; GX 1784 1789 13391; GX 1790 1788 18419; GX 1786 1784 18420; GX 1789 18419 18421;
GX 1785 18421 13381; GX 1786 18421 13378; GX 1787 1785 18422; GX 1791 1785 18428; GX 18428 18421 13380; GX 1787 1784 13392;
GX 1790 1789 18440; GX 13392 18440 13388; GX 1789 1787 13394; GX 18420 13394 13379; GX 1786 18428 13390; GX 1790 13390 13386;
GX 18420 18428 13387; GX 18440 13387 13385; GX 18419 13392 13384; GX 1791 13384 13383; GX 1788 1789 18403; GX 18422 18420 18388;
GX 18419 18388 13382; GX 18422 1786 18387; GX 1791 18387 13389; GA 13388 13384 13377; GX 13377 18422 18427; GA 13385 13383 13376;
GA 13389 1791 13375; GA 13393 13378 13374; GX 13374 18420 18426; GA 13386 13390 13373; GA 13387 13380 13372; GA 13392 13381 13371;
GX 13371 18421 18423; GX 18427 18423 18433; GA 13394 13379 13370; GX 13370 13376 18432; GX 1784 18432 18447; GX 18447 18433 13368;
GX 13370 13371 18402; GX 18402 18403 18454; GX 18454 18426 18451; GX 13373 18451 13367; GA 13391 13382 13369; GX 13369 13372 18425;
GX 13369 13375 18431; GX 13370 18425 18445; GX 1786 18431 18446; GX 18426 18425 18411; GX 18423 18411 13366; GX 18432 18431 18410;
GX 18420 18410 13365; GX 13373 18445 18401; GX 1790 18401 13360; GA 13368 13367 13364; GX 13364 13366 13363; GX 13364 18446 18400;
GX 18433 18400 13359; GA 13365 13363 13362; GX 13362 18433 18448; GX 18446 18448 13361; GX 13374 13362 18395; GX 18427 18395 18391;
GX 1784 18391 18394; GX 1786 18391 18390; GA 13359 13360 13358; GX 13358 13366 13357; GX 13364 13358 13356; GX 13358 18445 18399;
GX 13358 13375 18398; GX 18398 13372 18393; GX 18393 18394 13349; GA 13366 13356 13355; GX 13355 13363 13353; GX 13355 13373 18430;
GX 18430 18451 13347; GX 1790 18430 18438; GX 18438 18399 13354; GA 13361 13353 13352; GX 13352 13365 13351; GX 13352 13376 18397;
GX 18438 18397 18389; GX 18420 18389 18396; GX 18393 18396 13350; GX 13352 18448 18392; GX 18447 18392 13348; GX 18389 18390 13346;
GA 13347 13384 13345; GA 13354 13383 13344; GA 13357 1791 13343; GA 13348 13378 13342; GX 13342 13345 18436; GI 18436 18407;
GA 13351 13390 13341; GA 13361 13380 13340; GX 13340 13343 18443; GX 18443 18407 18418; GA 13349 13381 13339; GX 13339 13345 18441;
GX 13339 13342 18412; GA 13346 13379 13338; GX 13338 13341 18435; GX 13338 18441 18414; GA 13350 13382 13337; GA 13347 13388 13336;
GA 13354 13385 13335; GA 13357 13389 13334; GA 13348 13393 13333; GX 13333 13337 18437; GX 18435 18437 18449; GX 13340 18449 18415;
GX 18441 18437 18409; GA 13351 13386 13332; GA 13361 13387 13331; GX 13331 13343 18442; GX 13334 18442 18405; GA 13349 13392 13330;
GA 13346 13394 13329; GX 13329 13330 18424; GX 13335 18424 18429; GX 13336 18429 18434; GX 13344 18434 18439; GX 13332 18424 18444;
GX 13341 18439 18450; GX 18436 18450 28522; GX 28522 28529 3028; GX 2978 3028 28423; GX 28423 147 1547; GX 3028 3029 3097;
GX 3097 3096 3098; GI 3098 28431; GX 28431 155 1539; GX 3028 3033 3067; GX 3079 28522 3053; GX 3054 3053 28408;
GX 28408 130 1562; GX 18443 18450 28521; GX 28521 28528 3026; GX 2976 3026 28422; GX 28422 148 1548; GX 3026 3027 3094;
GX 3094 3093 28430; GX 28430 156 1540; GX 3026 3031 3066; GX 13333 18444 18417; GX 18417 18418 18416; GX 18416 18756 3021;
GX 3021 3025 3061; GX 3021 3050 3071; GX 19436 3071 28419; GX 28419 151 1551; GX 3021 3041 3087; GX 19096 3087 28427;
GX 28427 159 1543; GX 18444 18415 13397; GX 18439 18414 13396; GX 18435 18434 18413; GX 18412 18413 28525; GX 28525 28546 3049;
GX 3049 28538 3083; GX 3083 3082 28426; GX 28426 144 1544; GX 1547 1544 11292; GI 3049 3261; GX 28525 3101 28434;
GX 28434 152 1536; GX 1539 1536 11222; GX 28525 28532 3042; GX 3023 3042 3059; GX 3042 28522 3065; GX 3066 3065 28415;
GX 28415 139 1555; GX 18416 3059 28411; GX 28411 143 1559; GX 3042 28521 3063; GX 3023 3049 3247; GX 18756 3247 28403;
GX 28403 135 1567; GX 3049 28521 3258; GX 3258 3257 2977; GX 2977 3031 28407; GX 28407 131 1563; GX 3049 18416 3268;
GX 3268 3267 2973; GX 2973 3025 28404; GX 28404 134 1566; GX 18407 18429 18406; GX 18405 18406 18404; GI 18404 18453;
GX 18453 18449 28520; GX 28520 28527 3024; GX 3024 28541 3072; GX 3024 3025 3092; GX 28534 3092 28429; GX 28429 157 1541;
GX 1536 1541 11221; GX 1541 1539 11224; GX 1540 1541 20511; GI 3072 3074].
(** aes128_with_ks.txt:4754-5003 *)
Definition aes_enc_file_g19 : list gate := [
GX 3074 3073 28421; GX 28421 149 1549; GX 1544 1549 11291; GX 1549 1547 11294; GX 1548 1549 20443; GX 3024 3029 3064;
GX 3064 3063 28414; GX 28414 140 1556; GX 3261 28520 3264; GX 3264 3263 2975; GX 2975 3029 28406; GX 28406 132 1564;
GX 1566 1564 20323; GA 13350 13391 13328; GX 13328 13330 18408; GX 18408 18409 18452; GX 18452 18442 13395; GI 13397 28519;
GX 3042 28519 3060; GX 3061 3060 28412; GX 28412 142 1558; GX 1558 1556 20391; GX 28519 28526 3022; GX 2974 3022 28420;
GX 28420 150 1550; GX 1544 1550 11293; GX 1550 1548 20459; GX 1549 20459 20461; GX 1550 1549 20480; GX 11292 20480 11288;
GX 20459 11292 11284; GX 1551 11284 11283; GA 11288 11284 11277; GX 3022 3027 3062; GX 3022 3023 3090; GX 3090 3089 3091;
GX 28520 3062 28413; GX 28413 141 1557; GX 1557 20391 20393; GX 1558 1557 20412; GX 1557 1555 11364; GX 1556 1557 20375;
GI 3091 28428; GX 28428 158 1542; GX 1536 1542 11223; GX 1542 1540 20527; GX 1541 20527 20529; GX 1542 1541 20548;
GX 11222 20548 11218; GX 20527 11222 11214; GX 1543 11214 11213; GA 11218 11214 11207; GX 3027 28519 3249; GX 3249 3248 28405;
GX 28405 133 1565; GX 1565 20323 20325; GX 1562 20325 11418; GX 1566 1565 20344; GX 1565 1563 11434; GX 1564 1565 20307;
GI 13396 28524; GX 28524 28531 3032; GX 3032 3033 3100; GX 28538 3100 28433; GX 28433 153 1537; GX 1537 20529 11211;
GX 1539 1537 20530; GX 11207 20530 20535; GX 1543 1537 20536; GX 20536 20529 11210; GA 11222 11211 11201; GX 11201 20529 20531;
GX 20535 20531 20541; GX 28545 28524 3057; GX 3058 3057 28410; GX 28410 128 1560; GX 1560 1566 11433; GX 1560 1565 11431;
GX 1562 1560 20324; GX 20324 11434 11419; GX 1563 1560 11432; GX 11432 20344 11428; GX 20323 11432 11424; GX 1567 11424 11423;
GA 11428 11424 11417; GA 11433 11418 11414; GX 11414 20324 20330; GA 11434 11419 11410; GI 3032 3078; GX 3078 3261 3070;
GX 28539 3070 28418; GX 28418 136 1552; GX 1552 1558 11363; GX 1552 1557 11361; GX 1555 1552 11362; GX 11362 20412 11358;
GX 20391 11362 11354; GX 1559 11354 11353; GA 11358 11354 11347; GX 3078 28545 3081; GX 3081 3080 28425; GX 28425 145 1545;
GX 1545 20461 11281; GX 1547 1545 20462; GX 11277 20462 20467; GX 1551 1545 20468; GX 20468 20461 11280; GA 11292 11281 11271;
GX 11271 20461 20463; GX 20467 20463 20473; GI 13395 28523; GX 28523 28530 3030; GX 3030 3031 3099; GX 28537 3099 28432;
GX 28432 154 1538; GX 1538 20529 11208; GX 1538 1536 20528; GX 20528 11224 11209; GX 1538 20536 11220; GX 1542 11220 11216;
GX 20528 20536 11217; GX 20548 11217 11215; GX 20530 20528 20496; GX 20527 20496 11212; GX 20530 1538 20495; GX 1543 20495 11219;
GA 11215 11213 11206; GA 11219 1543 11205; GA 11223 11208 11204; GX 11204 20528 20534; GA 11216 11220 11203; GA 11217 11210 11202;
GA 11224 11209 11200; GX 11200 11206 20540; GX 1536 20540 20555; GX 20555 20541 11198; GX 11200 11201 20510; GX 20510 20511 20562;
GX 20562 20534 20559; GX 11203 20559 11197; GA 11221 11212 11199; GX 11199 11202 20533; GX 11199 11205 20539; GX 11200 20533 20553;
GX 1538 20539 20554; GX 20534 20533 20519; GX 20531 20519 11196; GX 20540 20539 20518; GX 20528 20518 11195; GX 11203 20553 20509;
GX 1542 20509 11190; GA 11198 11197 11194; GX 11194 11196 11193; GX 11194 20554 20508; GX 20541 20508 11189; GA 11195 11193 11192;
GX 11192 20541 20556; GX 20554 20556 11191; GX 11204 11192 20503; GX 20535 20503 20499; GX 1536 20499 20502; GX 1538 20499 20498;
GA 11189 11190 11188; GX 11188 11196 11187; GX 11194 11188 11186; GX 11188 20553 20507; GX 11188 11205 20506; GX 20506 11202 20501;
GX 20501 20502 11179; GA 11196 11186 11185; GX 11185 11193 11183; GX 11185 11203 20538; GX 20538 20559 11177; GX 1542 20538 20546;
GX 20546 20507 11184; GA 11191 11183 11182; GX 11182 11195 11181; GX 11182 11206 20505; GX 20546 20505 20497; GX 20528 20497 20504;
GX 20501 20504 11180; GX 11182 20556 20500; GX 20555 20500 11178; GX 20497 20498 11176; GA 11177 11214 11175; GA 11184 11213 11174;
GA 11187 1543 11173; GA 11178 11208 11172; GX 11172 11175 20544; GI 20544 20515; GA 11181 11220 11171; GA 11191 11210 11170;
GX 11170 11173 20551; GX 20551 20515 20526; GA 11179 11211 11169; GX 11169 11175 20549; GX 11169 11172 20520; GA 11176 11209 11168;
GX 11168 11171 20543; GX 11168 20549 20522; GA 11180 11212 11167; GA 11177 11218 11166; GA 11184 11215 11165; GA 11187 11219 11164;
GA 11178 11223 11163; GX 11163 11167 20545; GX 20543 20545 20557; GX 11170 20557 20523; GX 20549 20545 20517; GA 11181 11216 11162;
GA 11191 11217 11161; GX 11161 11173 20550; GX 11164 20550 20513; GA 11179 11222 11160; GA 11176 11224 11159; GX 11159 11160 20532;
GX 11165 20532 20537; GX 11166 20537 20542; GX 11174 20542 20547; GX 11162 20532 20552; GX 11171 20547 20558; GX 20544 20558 30463;
GX 20551 20558 30462; GX 11163 20552 20525; GX 20525 20526 20524; GX 20552 20523 11227; GX 20547 20522 11226; GX 20543 20542 20521;
GX 20520 20521 30466; GX 20515 20537 20514; GX 20513 20514 20512; GI 20512 20561; GX 20561 20557 30461; GA 11180 11221 11158;
GX 11158 11160 20516; GX 20516 20517 20560; GX 20560 20550 11225; GI 11227 30460; GI 11226 30465; GI 11225 30464;
GX 28523 3067 28416; GX 28416 138 1554; GX 1554 20393 11348; GX 1554 1552 20392; GX 20392 11364 11349; GA 11363 11348 11344;
GX 11344 20392 20398; GA 11364 11349 11340; GX 28531 28523 3055; GX 3056 3055 28409].
(** aes128_with_ks.txt:5004-5253 *)
Definition aes_enc_file_g20 : list gate := [
GX 28409 129 1561; GX 1561 20325 11421; GX 1563 1561 20326; GX 11417 20326 20331; GX 1567 1561 20332; GX 20332 20325 11420;
GX 1562 20332 11430; GX 1566 11430 11426; GX 20324 20332 11427; GX 20344 11427 11425; GX 20326 20324 20292; GX 20323 20292 11422;
GX 20326 1562 20291; GX 1567 20291 11429; GA 11425 11423 11416; GX 11410 11416 20336; GX 1560 20336 20351; GA 11429 1567 11415;
GA 11426 11430 11413; GA 11427 11420 11412; GA 11432 11421 11411; GX 11411 20325 20327; GX 20331 20327 20337; GX 20351 20337 11408;
GX 11410 11411 20306; GX 20306 20307 20358; GX 20358 20330 20355; GX 11413 20355 11407; GA 11431 11422 11409; GX 11409 11412 20329;
GX 11409 11415 20335; GX 11410 20329 20349; GX 1562 20335 20350; GX 20330 20329 20315; GX 20327 20315 11406; GX 20336 20335 20314;
GX 20324 20314 11405; GX 11413 20349 20305; GX 1566 20305 11400; GA 11408 11407 11404; GX 11404 11406 11403; GX 11404 20350 20304;
GX 20337 20304 11399; GA 11405 11403 11402; GX 11402 20337 20352; GX 20350 20352 11401; GX 11414 11402 20299; GX 20331 20299 20295;
GX 1560 20295 20298; GX 1562 20295 20294; GA 11399 11400 11398; GX 11398 11406 11397; GX 11404 11398 11396; GX 11398 20349 20303;
GX 11398 11415 20302; GX 20302 11412 20297; GX 20297 20298 11389; GA 11406 11396 11395; GX 11395 11403 11393; GX 11395 11413 20334;
GX 20334 20355 11387; GX 1566 20334 20342; GX 20342 20303 11394; GA 11401 11393 11392; GX 11392 11405 11391; GX 11392 11416 20301;
GX 20342 20301 20293; GX 20324 20293 20300; GX 20297 20300 11390; GX 11392 20352 20296; GX 20351 20296 11388; GX 20293 20294 11386;
GA 11387 11424 11385; GA 11394 11423 11384; GA 11397 1567 11383; GA 11388 11418 11382; GX 11382 11385 20340; GI 20340 20311;
GA 11391 11430 11381; GA 11401 11420 11380; GX 11380 11383 20347; GX 20347 20311 20322; GA 11389 11421 11379; GX 11379 11385 20345;
GX 11379 11382 20316; GA 11386 11419 11378; GX 11378 11381 20339; GX 11378 20345 20318; GA 11390 11422 11377; GA 11387 11428 11376;
GA 11394 11425 11375; GA 11397 11429 11374; GA 11388 11433 11373; GX 11373 11377 20341; GX 20339 20341 20353; GX 11380 20353 20319;
GX 20345 20341 20313; GA 11391 11426 11372; GA 11401 11427 11371; GX 11371 11383 20346; GX 11374 20346 20309; GA 11389 11432 11370;
GA 11386 11434 11369; GX 11369 11370 20328; GX 11375 20328 20333; GX 11376 20333 20338; GX 11384 20338 20343; GX 11372 20328 20348;
GX 11381 20343 20354; GX 20340 20354 30414; GX 20347 20354 30413; GX 11373 20348 20321; GX 20321 20322 20320; GX 20348 20319 11437;
GX 20343 20318 11436; GX 20339 20338 20317; GX 20316 20317 30417; GX 20311 20333 20310; GX 20309 20310 20308; GI 20308 20357;
GX 20357 20353 30412; GA 11390 11431 11368; GX 11368 11370 20312; GX 20312 20313 20356; GX 20356 20346 11435; GI 11437 30411;
GI 11436 30416; GI 11435 30415; GX 3030 3034 3069; GX 28524 3069 28417; GX 28417 137 1553; GX 1553 20393 11351;
GX 1555 1553 20394; GX 11347 20394 20399; GX 1559 1553 20400; GX 20400 20393 11350; GX 1554 20400 11360; GX 1558 11360 11356;
GX 20392 20400 11357; GX 20412 11357 11355; GX 20394 20392 20360; GX 20391 20360 11352; GX 20394 1554 20359; GX 1559 20359 11359;
GA 11355 11353 11346; GX 11340 11346 20404; GX 1552 20404 20419; GA 11359 1559 11345; GA 11356 11360 11343; GA 11357 11350 11342;
GA 11362 11351 11341; GX 11341 20393 20395; GX 20399 20395 20405; GX 20419 20405 11338; GX 11340 11341 20374; GX 20374 20375 20426;
GX 20426 20398 20423; GX 11343 20423 11337; GA 11361 11352 11339; GX 11339 11342 20397; GX 11339 11345 20403; GX 11340 20397 20417;
GX 1554 20403 20418; GX 20398 20397 20383; GX 20395 20383 11336; GX 20404 20403 20382; GX 20392 20382 11335; GX 11343 20417 20373;
GX 1558 20373 11330; GA 11338 11337 11334; GX 11334 11336 11333; GX 11334 20418 20372; GX 20405 20372 11329; GA 11335 11333 11332;
GX 11332 20405 20420; GX 20418 20420 11331; GX 11344 11332 20367; GX 20399 20367 20363; GX 1552 20363 20366; GX 1554 20363 20362;
GA 11329 11330 11328; GX 11328 11336 11327; GX 11334 11328 11326; GX 11328 20417 20371; GX 11328 11345 20370; GX 20370 11342 20365;
GX 20365 20366 11319; GA 11336 11326 11325; GX 11325 11333 11323; GX 11325 11343 20402; GX 20402 20423 11317; GX 1558 20402 20410;
GX 20410 20371 11324; GA 11331 11323 11322; GX 11322 11335 11321; GX 11322 11346 20369; GX 20410 20369 20361; GX 20392 20361 20368;
GX 20365 20368 11320; GX 11322 20420 20364; GX 20419 20364 11318; GX 20361 20362 11316; GA 11317 11354 11315; GA 11324 11353 11314;
GA 11327 1559 11313; GA 11318 11348 11312; GX 11312 11315 20408; GI 20408 20379; GA 11321 11360 11311; GA 11331 11350 11310;
GX 11310 11313 20415; GX 20415 20379 20390; GA 11319 11351 11309; GX 11309 11315 20413; GX 11309 11312 20384; GA 11316 11349 11308;
GX 11308 11311 20407; GX 11308 20413 20386; GA 11320 11352 11307; GA 11317 11358 11306; GA 11324 11355 11305; GA 11327 11359 11304;
GA 11318 11363 11303; GX 11303 11307 20409; GX 20407 20409 20421; GX 11310 20421 20387; GX 20413 20409 20381; GA 11321 11356 11302;
GA 11331 11357 11301; GX 11301 11313 20414; GX 11304 20414 20377; GA 11319 11362 11300; GA 11316 11364 11299; GX 11299 11300 20396;
GX 11305 20396 20401; GX 11306 20401 20406; GX 11314 20406 20411; GX 11302 20396 20416; GX 11311 20411 20422; GX 20408 20422 30393;
GX 20415 20422 30392; GX 11303 20416 20389; GX 20389 20390 20388; GX 20416 20387 11367; GX 20411 20386 11366; GX 20407 20406 20385;
GX 20384 20385 30396; GX 20379 20401 20378; GX 20377 20378 20376; GI 20376 20425].
(** aes128_with_ks.txt:5254-5503 *)
Definition aes_enc_file_g21 : list gate := [
GX 20425 20421 30391; GA 11320 11361 11298; GX 11298 11300 20380; GX 20380 20381 20424; GX 20424 20414 11365; GI 11367 30390;
GI 11366 30395; GI 11365 30394; GX 3030 28544 3076; GX 3076 3075 3077; GI 3077 28424; GX 28424 146 1546;
GX 1546 20461 11278; GX 1546 1544 20460; GX 20460 11294 11279; GX 1546 20468 11290; GX 1550 11290 11286; GX 20460 20468 11287;
GX 20480 11287 11285; GX 20462 20460 20428; GX 20459 20428 11282; GX 20462 1546 20427; GX 1551 20427 11289; GA 11285 11283 11276;
GA 11289 1551 11275; GA 11293 11278 11274; GX 11274 20460 20466; GA 11286 11290 11273; GA 11287 11280 11272; GA 11294 11279 11270;
GX 11270 11276 20472; GX 1544 20472 20487; GX 20487 20473 11268; GX 11270 11271 20442; GX 20442 20443 20494; GX 20494 20466 20491;
GX 11273 20491 11267; GA 11291 11282 11269; GX 11269 11272 20465; GX 11269 11275 20471; GX 11270 20465 20485; GX 1546 20471 20486;
GX 20466 20465 20451; GX 20463 20451 11266; GX 20472 20471 20450; GX 20460 20450 11265; GX 11273 20485 20441; GX 1550 20441 11260;
GA 11268 11267 11264; GX 11264 11266 11263; GX 11264 20486 20440; GX 20473 20440 11259; GA 11265 11263 11262; GX 11262 20473 20488;
GX 20486 20488 11261; GX 11274 11262 20435; GX 20467 20435 20431; GX 1544 20431 20434; GX 1546 20431 20430; GA 11259 11260 11258;
GX 11258 11266 11257; GX 11264 11258 11256; GX 11258 20485 20439; GX 11258 11275 20438; GX 20438 11272 20433; GX 20433 20434 11249;
GA 11266 11256 11255; GX 11255 11263 11253; GX 11255 11273 20470; GX 20470 20491 11247; GX 1550 20470 20478; GX 20478 20439 11254;
GA 11261 11253 11252; GX 11252 11265 11251; GX 11252 11276 20437; GX 20478 20437 20429; GX 20460 20429 20436; GX 20433 20436 11250;
GX 11252 20488 20432; GX 20487 20432 11248; GX 20429 20430 11246; GA 11247 11284 11245; GA 11254 11283 11244; GA 11257 1551 11243;
GA 11248 11278 11242; GX 11242 11245 20476; GI 20476 20447; GA 11251 11290 11241; GA 11261 11280 11240; GX 11240 11243 20483;
GX 20483 20447 20458; GA 11249 11281 11239; GX 11239 11245 20481; GX 11239 11242 20452; GA 11246 11279 11238; GX 11238 11241 20475;
GX 11238 20481 20454; GA 11250 11282 11237; GA 11247 11288 11236; GA 11254 11285 11235; GA 11257 11289 11234; GA 11248 11293 11233;
GX 11233 11237 20477; GX 20475 20477 20489; GX 11240 20489 20455; GX 20481 20477 20449; GA 11251 11286 11232; GA 11261 11287 11231;
GX 11231 11243 20482; GX 11234 20482 20445; GA 11249 11292 11230; GA 11246 11294 11229; GX 11229 11230 20464; GX 11235 20464 20469;
GX 11236 20469 20474; GX 11244 20474 20479; GX 11232 20464 20484; GX 11241 20479 20490; GX 20476 20490 30372; GX 20483 20490 30371;
GX 11233 20484 20457; GX 20457 20458 20456; GX 20484 20455 11297; GX 20479 20454 11296; GX 20475 20474 20453; GX 20452 20453 30375;
GX 20447 20469 20446; GX 20445 20446 20444; GI 20444 20493; GX 20493 20489 30370; GA 11250 11291 11228; GX 11228 11230 20448;
GX 20448 20449 20492; GX 20492 20482 11295; GI 11297 30369; GI 11296 30374; GI 11295 30373; GX 30452 30459 14730;
GX 30445 30466 14731; GX 30424 30431 14732; GX 30417 30438 14733; GX 30396 30403 14734; GX 30389 30410 14735; GX 30368 30375 14736;
GX 30361 30382 14737; GX 30445 30452 14738; GX 30459 30466 14739; GX 30417 30424 14740; GX 30431 30438 14741; GX 30389 30396 14742;
GX 30403 30410 14743; GX 30361 30368 14744; GX 30375 30382 14745; GX 30458 30465 14746; GX 30457 30464 14747; GX 30444 30451 14748;
GX 30456 30463 14749; GX 30443 30450 14750; GX 30455 30462 14751; GX 30442 30449 14752; GX 30454 30461 14753; GX 30441 30448 14754;
GX 30453 30460 14755; GX 30440 30447 14756; GX 20184 20524 14757; GX 30439 30446 14758; GX 19504 19844 14759; GX 30430 30437 14760;
GX 30429 30436 14761; GX 30416 30423 14762; GX 30428 30435 14763; GX 30415 30422 14764; GX 30427 30434 14765; GX 30414 30421 14766;
GX 30426 30433 14767; GX 30413 30420 14768; GX 30425 30432 14769; GX 30412 30419 14770; GX 19912 20252 14771; GX 30411 30418 14772;
GX 20320 19572 14773; GX 30402 30409 14774; GX 30401 30408 14775; GX 30388 30395 14776; GX 30400 30407 14777; GX 30387 30394 14778;
GX 30399 30406 14779; GX 30386 30393 14780; GX 30398 30405 14781; GX 30385 30392 14782; GX 30397 30404 14783; GX 30384 30391 14784;
GX 19640 19980 14785; GX 30383 30390 14786; GX 20048 20388 14787; GX 30374 30381 14788; GX 30373 30380 14789; GX 30360 30367 14790;
GX 30372 30379 14791; GX 30359 30366 14792; GX 30371 30378 14793; GX 30358 30365 14794; GX 30370 30377 14795; GX 30357 30364 14796;
GX 30369 30376 14797; GX 30356 30363 14798; GX 20456 19708 14799; GX 30355 30362 14800; GX 19776 20116 14801; GX 14799 14737 14729;
GX 20116 14729 30227; GX 30227 359 2303; GI 14747 14728; GX 14728 30463 14726; GI 30450 14701; GX 14701 30442 14727;
GX 14726 14727 30328; GX 30328 258 2202; GX 14746 30464 14724; GX 30451 30443 14725; GX 14724 14725 30329; GX 30329 257 2201;
GX 14730 30466 14722; GX 30465 30444 14723; GX 14722 14723 30330; GX 30330 256 2200; GX 2202 2200 21412; GX 14757 14738 14721;
GX 19504 14721 30331; GX 30331 271 2199; GX 14759 14755 14719; GX 14738 30439 14720; GX 14719 14720 30332; GX 30332 270 2198;
GX 14758 14753 14718; GX 30440 14718 30333; GX 30333 269 2197; GX 2198 2197 21500; GX 14756 14751 14716; GX 14738 30441 14717;
GX 14716 14717 30334; GX 30334 268 2196; GX 2198 2196 21479; GX 2197 21479 21481; GX 2196 2197 21463; GX 14754 14749 14714;
GX 14738 30442 14715; GX 14714 14715 30335; GX 30335 267 2195; GX 2197 2195 10244].
(** aes128_with_ks.txt:5504-5753 *)
Definition aes_enc_file_g22 : list gate := [
GX 14752 14747 14713; GX 30443 14713 30336; GX 30336 266 2194; GX 2194 21481 10228; GX 14800 14795 14712; GX 30356 14712 30237;
GX 30237 365 2293; GX 14750 14746 14711; GX 30444 14711 30337; GX 30337 265 2193; GX 2193 21481 10231; GX 2195 2193 21482;
GX 2199 2193 21488; GX 21488 21481 10230; GX 2194 21488 10240; GX 2198 10240 10236; GX 21482 2194 21447; GX 2199 21447 10239;
GA 10239 2199 10225; GA 10236 10240 10223; GI 14748 14702; GI 14731 14519; GX 14702 14519 14710; GX 30459 14710 30338;
GX 30338 264 2192; GX 2192 2198 10243; GX 2192 2197 10241; GX 2194 2192 21480; GX 21480 10244 10229; GX 2195 2192 10242;
GX 10242 21500 10238; GX 21480 21488 10237; GX 21500 10237 10235; GX 21479 10242 10234; GX 2199 10234 10233; GX 21482 21480 21448;
GX 21479 21448 10232; GA 10238 10234 10227; GX 10227 21482 21487; GA 10235 10233 10226; GA 10243 10228 10224; GX 10224 21480 21486;
GA 10237 10230 10222; GA 10242 10231 10221; GX 10221 21481 21483; GX 21487 21483 21493; GA 10244 10229 10220; GX 10220 10226 21492;
GX 2192 21492 21507; GX 21507 21493 10218; GX 10220 10221 21462; GX 21462 21463 21514; GX 21514 21486 21511; GX 10223 21511 10217;
GA 10241 10232 10219; GX 10219 10222 21485; GX 10219 10225 21491; GX 10220 21485 21505; GX 2194 21491 21506; GX 21486 21485 21471;
GX 21483 21471 10216; GX 21492 21491 21470; GX 21480 21470 10215; GX 10223 21505 21461; GX 2198 21461 10210; GA 10218 10217 10214;
GX 10214 10216 10213; GX 10214 21506 21460; GX 21493 21460 10209; GA 10215 10213 10212; GX 10212 21493 21508; GX 21506 21508 10211;
GX 10224 10212 21455; GX 21487 21455 21451; GX 2192 21451 21454; GX 2194 21451 21450; GA 10209 10210 10208; GX 10208 10216 10207;
GX 10214 10208 10206; GX 10208 21505 21459; GX 10208 10225 21458; GX 21458 10222 21453; GX 21453 21454 10199; GA 10216 10206 10205;
GX 10205 10213 10203; GX 10205 10223 21490; GX 21490 21511 10197; GX 2198 21490 21498; GX 21498 21459 10204; GA 10211 10203 10202;
GX 10202 10215 10201; GX 10202 10226 21457; GX 21498 21457 21449; GX 21480 21449 21456; GX 21453 21456 10200; GX 10202 21508 21452;
GX 21507 21452 10198; GX 21449 21450 10196; GA 10197 10234 10195; GA 10204 10233 10194; GA 10207 2199 10193; GA 10198 10228 10192;
GX 10192 10195 21496; GI 21496 21467; GA 10201 10240 10191; GA 10211 10230 10190; GX 10190 10193 21503; GX 21503 21467 21478;
GA 10199 10231 10189; GX 10189 10195 21501; GX 10189 10192 21472; GA 10196 10229 10188; GX 10188 10191 21495; GX 10188 21501 21474;
GA 10200 10232 10187; GA 10197 10238 10186; GA 10204 10235 10185; GA 10207 10239 10184; GA 10198 10243 10183; GX 10183 10187 21497;
GX 21495 21497 21509; GX 10190 21509 21475; GX 21501 21497 21469; GA 10201 10236 10182; GA 10211 10237 10181; GX 10181 10193 21502;
GX 10184 21502 21465; GA 10199 10242 10180; GA 10196 10244 10179; GX 10179 10180 21484; GX 10185 21484 21489; GX 10186 21489 21494;
GX 10194 21494 21499; GX 10182 21484 21504; GX 10191 21499 21510; GX 21496 21510 30153; GX 21503 21510 30152; GX 10183 21504 21477;
GX 21477 21478 21476; GX 21504 21475 10247; GX 21499 21474 10246; GX 21495 21494 21473; GX 21472 21473 30156; GX 21467 21489 21466;
GX 21465 21466 21464; GI 21464 21513; GX 21513 21509 30151; GA 10200 10241 10178; GX 10178 10180 21468; GX 21468 21469 21512;
GX 21512 21502 10245; GI 10247 30150; GI 10246 30155; GI 10245 30154; GI 30151 14852; GI 30154 14978;
GI 30150 14843; GX 30156 30155 14975; GI 30152 14849; GX 14759 14730 14709; GX 20524 14709 30339; GX 30339 279 2191;
GX 14756 30461 14708; GI 14708 14706; GI 30453 14692; GX 14692 30446 14707; GX 14706 14707 30341; GX 30341 277 2189;
GX 14750 30464 14704; GI 30456 14685; GX 14685 30449 14705; GX 14704 14705 14703; GI 14703 30344; GX 30344 274 2186;
GX 14702 30465 14699; GX 30457 14701 14700; GX 14699 14700 30345; GX 30345 273 2185; GX 2191 2185 21556; GX 2186 21556 10170;
GX 14731 30458 14697; GX 30452 30451 14698; GX 14697 14698 30346; GX 30346 272 2184; GX 2184 2189 10171; GX 2186 2184 21548;
GX 21548 21556 10167; GX 14798 14793 14695; GI 14744 14530; GX 14530 30357 14696; GX 14695 14696 14694; GI 14694 30238;
GX 30238 364 2292; GX 2292 2293 20647; GX 14759 14739 14693; GX 20184 14693 30347; GX 30347 287 2183; GX 14758 14757 14690;
GX 14739 14692 14691; GX 14690 14691 14689; GI 14689 30348; GX 30348 286 2182; GX 14756 14755 14688; GX 30454 14688 30349;
GX 30349 285 2181; GX 2182 2181 21636; GX 14754 14753 14686; GX 14739 30455 14687; GX 14686 14687 30350; GX 30350 284 2180;
GX 2182 2180 21615; GX 2181 21615 21617; GX 2180 2181 21599; GX 14752 14751 14683; GX 14739 14685 14684; GX 14683 14684 14682;
GI 14682 30351; GX 30351 283 2179; GX 2181 2179 10104; GX 14750 14749 14681; GX 30457 14681 30352; GX 30352 282 2178;
GX 2178 21617 10088; GX 14748 14747 14680; GX 30458 14680 30353; GX 30353 281 2177; GX 2177 21617 10091; GX 2179 2177 21618;
GX 2183 2177 21624; GX 21624 21617 10090; GX 2178 21624 10100; GX 2182 10100 10096; GX 21618 2178 21583; GX 2183 21583 10099;
GA 10099 2183 10085; GA 10096 10100 10083; GX 14746 14730 14679; GX 30445 14679 30354; GX 30354 280 2176; GX 2176 2182 10103;
GX 2176 2181 10101; GX 2178 2176 21616; GX 21616 10104 10089; GX 2179 2176 10102; GX 10102 21636 10098; GX 21616 21624 10097;
GX 21636 10097 10095; GX 21615 10102 10094; GX 2183 10094 10093; GX 21618 21616 21584].
(** aes128_with_ks.txt:5754-6003 *)
Definition aes_enc_file_g23 : list gate := [
GX 21615 21584 10092; GA 10098 10094 10087; GX 10087 21618 21623; GA 10095 10093 10086; GA 10103 10088 10084; GX 10084 21616 21622;
GA 10097 10090 10082; GA 10102 10091 10081; GX 10081 21617 21619; GX 21623 21619 21629; GA 10104 10089 10080; GX 10080 10086 21628;
GX 2176 21628 21643; GX 21643 21629 10078; GX 10080 10081 21598; GX 21598 21599 21650; GX 21650 21622 21647; GX 10083 21647 10077;
GA 10101 10092 10079; GX 10079 10082 21621; GX 10079 10085 21627; GX 10080 21621 21641; GX 2178 21627 21642; GX 21622 21621 21607;
GX 21619 21607 10076; GX 21628 21627 21606; GX 21616 21606 10075; GX 10083 21641 21597; GX 2182 21597 10070; GA 10078 10077 10074;
GX 10074 10076 10073; GX 10074 21642 21596; GX 21629 21596 10069; GA 10075 10073 10072; GX 10072 21629 21644; GX 21642 21644 10071;
GX 10084 10072 21591; GX 21623 21591 21587; GX 2176 21587 21590; GX 2178 21587 21586; GA 10069 10070 10068; GX 10068 10076 10067;
GX 10074 10068 10066; GX 10068 21641 21595; GX 10068 10085 21594; GX 21594 10082 21589; GX 21589 21590 10059; GA 10076 10066 10065;
GX 10065 10073 10063; GX 10065 10083 21626; GX 21626 21647 10057; GX 2182 21626 21634; GX 21634 21595 10064; GA 10071 10063 10062;
GX 10062 10075 10061; GX 10062 10086 21593; GX 21634 21593 21585; GX 21616 21585 21592; GX 21589 21592 10060; GX 10062 21644 21588;
GX 21643 21588 10058; GX 21585 21586 10056; GA 10057 10094 10055; GA 10064 10093 10054; GA 10067 2183 10053; GA 10058 10088 10052;
GX 10052 10055 21632; GI 21632 21603; GA 10061 10100 10051; GA 10071 10090 10050; GX 10050 10053 21639; GX 21639 21603 21614;
GA 10059 10091 10049; GX 10049 10055 21637; GX 10049 10052 21608; GA 10056 10089 10048; GX 10048 10051 21631; GX 10048 21637 21610;
GA 10060 10092 10047; GA 10057 10098 10046; GA 10064 10095 10045; GA 10067 10099 10044; GA 10058 10103 10043; GX 10043 10047 21633;
GX 21631 21633 21645; GX 10050 21645 21611; GX 21637 21633 21605; GA 10061 10096 10042; GA 10071 10097 10041; GX 10041 10053 21638;
GX 10044 21638 21601; GA 10059 10102 10040; GA 10056 10104 10039; GX 10039 10040 21620; GX 10045 21620 21625; GX 10046 21625 21630;
GX 10054 21630 21635; GX 10042 21620 21640; GX 10051 21635 21646; GX 21632 21646 30223; GX 21639 21646 30222; GX 10043 21640 21613;
GX 21613 21614 21612; GX 21640 21611 10107; GX 21635 21610 10106; GX 21631 21630 21609; GX 21608 21609 30226; GX 21603 21625 21602;
GX 21601 21602 21600; GI 21600 21649; GX 21649 21645 30221; GA 10060 10101 10038; GX 10038 10040 21604; GX 21604 21605 21648;
GX 21648 21638 10105; GI 10107 30220; GI 10106 30225; GI 10105 30224; GI 14796 14658; GX 14658 14791 14677;
GX 14530 30358 14678; GX 14677 14678 30239; GX 30239 363 2291; GX 2293 2291 11084; GX 14794 14789 14676; GX 30359 14676 30240;
GX 30240 362 2290; GX 14792 14788 14675; GX 30360 14675 30241; GX 30241 361 2289; GX 2291 2289 20666; GX 20666 2290 20631;
GI 14790 14668; GI 14737 14470; GX 14668 14470 14674; GX 30375 14674 30242; GX 30242 360 2288; GX 2288 2293 11081;
GX 2290 2288 20664; GX 20664 11084 11069; GX 2291 2288 11082; GX 20666 20664 20632; GA 11084 11069 11060; GX 14801 14736 14673;
GX 19708 14673 30243; GX 30243 375 2287; GX 14798 30362 14671; GX 30377 30369 14672; GX 14671 14672 30245; GX 30245 373 2285;
GX 14792 30380 14669; GX 30372 30365 14670; GX 14669 14670 30248; GX 30248 370 2282; GX 14668 30381 14666; GI 30366 14601;
GX 30373 14601 14667; GX 14666 14667 30249; GX 30249 369 2281; GX 2287 2281 20740; GX 2282 20740 11010; GX 14737 30374 14664;
GX 30368 30367 14665; GX 14664 14665 30250; GX 30250 368 2280; GX 2280 2285 11011; GX 2282 2280 20732; GX 20732 20740 11007;
GX 14801 14745 14663; GX 20456 14663 30251; GX 30251 383 2279; GI 14800 14662; GX 14662 14799 14660; GI 14745 14654;
GX 14654 30369 14661; GX 14660 14661 30252; GX 30252 382 2278; GX 14798 14797 14659; GX 30370 14659 30253; GX 30253 381 2277;
GX 2278 2277 20820; GX 14658 14795 14656; GX 14654 30371 14657; GX 14656 14657 30254; GX 30254 380 2276; GX 2278 2276 20799;
GX 2277 20799 20801; GX 2276 2277 20783; GI 14794 14655; GX 14655 14793 14652; GX 14654 30372 14653; GX 14652 14653 30255;
GX 30255 379 2275; GX 2277 2275 10944; GX 14792 14791 14651; GX 30373 14651 30256; GX 30256 378 2274; GX 2274 20801 10928;
GX 14795 30376 14649; GX 30355 30363 14650; GX 14649 14650 30229; GX 30229 357 2301; GX 14790 14789 14648; GX 30374 14648 30257;
GX 30257 377 2273; GX 2273 20801 10931; GX 2275 2273 20802; GX 2279 2273 20808; GX 20808 20801 10930; GX 2274 20808 10940;
GX 2278 10940 10936; GX 20802 2274 20767; GX 2279 20767 10939; GA 10939 2279 10925; GA 10936 10940 10923; GX 14788 14736 14647;
GX 30361 14647 30258; GX 30258 376 2272; GX 2272 2278 10943; GX 2272 2277 10941; GX 2274 2272 20800; GX 20800 10944 10929;
GX 2275 2272 10942; GX 10942 20820 10938; GX 20800 20808 10937; GX 20820 10937 10935; GX 20799 10942 10934; GX 2279 10934 10933;
GX 20802 20800 20768; GX 20799 20768 10932; GA 10938 10934 10927; GX 10927 20802 20807; GA 10935 10933 10926; GA 10943 10928 10924;
GX 10924 20800 20806; GA 10937 10930 10922; GA 10942 10931 10921; GX 10921 20801 20803; GX 20807 20803 20813; GA 10944 10929 10920;
GX 10920 10926 20812; GX 2272 20812 20827; GX 20827 20813 10918; GX 10920 10921 20782; GX 20782 20783 20834; GX 20834 20806 20831;
GX 10923 20831 10917; GA 10941 10932 10919; GX 10919 10922 20805; GX 10919 10925 20811].
(** aes128_with_ks.txt:6004-6253 *)
Definition aes_enc_file_g24 : list gate := [
GX 10920 20805 20825; GX 2274 20811 20826; GX 20806 20805 20791; GX 20803 20791 10916; GX 20812 20811 20790; GX 20800 20790 10915;
GX 10923 20825 20781; GX 2278 20781 10910; GA 10918 10917 10914; GX 10914 10916 10913; GX 10914 20826 20780; GX 20813 20780 10909;
GA 10915 10913 10912; GX 10912 20813 20828; GX 20826 20828 10911; GX 10924 10912 20775; GX 20807 20775 20771; GX 2272 20771 20774;
GX 2274 20771 20770; GA 10909 10910 10908; GX 10908 10916 10907; GX 10914 10908 10906; GX 10908 20825 20779; GX 10908 10925 20778;
GX 20778 10922 20773; GX 20773 20774 10899; GA 10916 10906 10905; GX 10905 10913 10903; GX 10905 10923 20810; GX 20810 20831 10897;
GX 2278 20810 20818; GX 20818 20779 10904; GA 10911 10903 10902; GX 10902 10915 10901; GX 10902 10926 20777; GX 20818 20777 20769;
GX 20800 20769 20776; GX 20773 20776 10900; GX 10902 20828 20772; GX 20827 20772 10898; GX 20769 20770 10896; GA 10897 10934 10895;
GA 10904 10933 10894; GA 10907 2279 10893; GA 10898 10928 10892; GX 10892 10895 20816; GI 20816 20787; GA 10901 10940 10891;
GA 10911 10930 10890; GX 10890 10893 20823; GX 20823 20787 20798; GA 10899 10931 10889; GX 10889 10895 20821; GX 10889 10892 20792;
GA 10896 10929 10888; GX 10888 10891 20815; GX 10888 20821 20794; GA 10900 10932 10887; GA 10897 10938 10886; GA 10904 10935 10885;
GA 10907 10939 10884; GA 10898 10943 10883; GX 10883 10887 20817; GX 20815 20817 20829; GX 10890 20829 20795; GX 20821 20817 20789;
GA 10901 10936 10882; GA 10911 10937 10881; GX 10881 10893 20822; GX 10884 20822 20785; GA 10899 10942 10880; GA 10896 10944 10879;
GX 10879 10880 20804; GX 10885 20804 20809; GX 10886 20809 20814; GX 10894 20814 20819; GX 10882 20804 20824; GX 10891 20819 20830;
GX 20816 20830 30139; GX 20823 20830 30138; GX 10883 20824 20797; GX 20797 20798 20796; GX 20824 20795 10947; GX 20819 20794 10946;
GX 20815 20814 20793; GX 20792 20793 30142; GX 20787 20809 20786; GX 20785 20786 20784; GI 20784 20833; GX 20833 20829 30137;
GA 10900 10941 10878; GX 10878 10880 20788; GX 20788 20789 20832; GX 20832 20822 10945; GI 10947 30136; GI 10946 30141;
GI 10945 30140; GX 30142 30141 14926; GX 14785 14735 14646; GX 20388 14646 30259; GX 30259 327 2271; GX 14781 30404 14644;
GI 30391 14489; GX 14489 30383 14645; GX 14644 14645 14643; GI 14643 30261; GX 30261 325 2269; GI 14775 14642;
GX 14642 30407 14640; GI 30394 14615; GX 14615 30386 14641; GX 14640 14641 30264; GX 30264 322 2266; GX 14774 30408 14638;
GX 30395 30387 14639; GX 14638 14639 30265; GX 30265 321 2265; GX 2271 2265 20876; GX 2266 20876 10870; GX 14734 30410 14636;
GX 30409 30388 14637; GX 14636 14637 30266; GX 30266 320 2264; GX 2264 2269 10871; GX 2266 2264 20868; GX 20868 20876 10867;
GX 14785 14742 14635; GX 20048 14635 30267; GX 30267 335 2263; GI 14787 14634; GX 14634 14783 14632; GI 14742 14628;
GX 14628 30383 14633; GX 14632 14633 30268; GX 30268 334 2262; GX 14786 14781 14631; GX 30384 14631 30269; GX 30269 333 2261;
GX 2262 2261 20956; GI 14784 14621; GX 14621 14779 14629; GX 14628 30385 14630; GX 14629 14630 30270; GX 30270 332 2260;
GX 2262 2260 20935; GX 2261 20935 20937; GX 2260 2261 20919; GI 14782 14605; GX 14605 14777 14626; GX 14628 30386 14627;
GX 14626 14627 30271; GX 30271 331 2259; GX 2261 2259 10804; GX 14780 14775 14625; GX 30387 14625 30272; GX 30272 330 2258;
GX 2258 20937 10788; GX 14778 14774 14624; GX 30388 14624 30273; GX 30273 329 2257; GX 2257 20937 10791; GX 2259 2257 20938;
GX 2263 2257 20944; GX 20944 20937 10790; GX 2258 20944 10800; GX 2262 10800 10796; GX 20938 2258 20903; GX 2263 20903 10799;
GA 10799 2263 10785; GA 10796 10800 10783; GI 14776 14616; GI 14735 14481; GX 14616 14481 14623; GX 30403 14623 30274;
GX 30274 328 2256; GX 2256 2262 10803; GX 2256 2261 10801; GX 2258 2256 20936; GX 20936 10804 10789; GX 2259 2256 10802;
GX 10802 20956 10798; GX 20936 20944 10797; GX 20956 10797 10795; GX 20935 10802 10794; GX 2263 10794 10793; GX 20938 20936 20904;
GX 20935 20904 10792; GA 10798 10794 10787; GX 10787 20938 20943; GA 10795 10793 10786; GA 10803 10788 10784; GX 10784 20936 20942;
GA 10797 10790 10782; GA 10802 10791 10781; GX 10781 20937 20939; GX 20943 20939 20949; GA 10804 10789 10780; GX 10780 10786 20948;
GX 2256 20948 20963; GX 20963 20949 10778; GX 10780 10781 20918; GX 20918 20919 20970; GX 20970 20942 20967; GX 10783 20967 10777;
GA 10801 10792 10779; GX 10779 10782 20941; GX 10779 10785 20947; GX 10780 20941 20961; GX 2258 20947 20962; GX 20942 20941 20927;
GX 20939 20927 10776; GX 20948 20947 20926; GX 20936 20926 10775; GX 10783 20961 20917; GX 2262 20917 10770; GA 10778 10777 10774;
GX 10774 10776 10773; GX 10774 20962 20916; GX 20949 20916 10769; GA 10775 10773 10772; GX 10772 20949 20964; GX 20962 20964 10771;
GX 10784 10772 20911; GX 20943 20911 20907; GX 2256 20907 20910; GX 2258 20907 20906; GA 10769 10770 10768; GX 10768 10776 10767;
GX 10774 10768 10766; GX 10768 20961 20915; GX 10768 10785 20914; GX 20914 10782 20909; GX 20909 20910 10759; GA 10776 10766 10765;
GX 10765 10773 10763; GX 10765 10783 20946; GX 20946 20967 10757; GX 2262 20946 20954; GX 20954 20915 10764; GA 10771 10763 10762;
GX 10762 10775 10761; GX 10762 10786 20913; GX 20954 20913 20905; GX 20936 20905 20912; GX 20909 20912 10760; GX 10762 20964 20908;
GX 20963 20908 10758; GX 20905 20906 10756; GA 10757 10794 10755; GA 10764 10793 10754].
(** aes128_with_ks.txt:6254-6503 *)
Definition aes_enc_file_g25 : list gate := [
GA 10767 2263 10753; GA 10758 10788 10752; GX 10752 10755 20952; GI 20952 20923; GA 10761 10800 10751; GA 10771 10790 10750;
GX 10750 10753 20959; GX 20959 20923 20934; GA 10759 10791 10749; GX 10749 10755 20957; GX 10749 10752 20928; GA 10756 10789 10748;
GX 10748 10751 20951; GX 10748 20957 20930; GA 10760 10792 10747; GA 10757 10798 10746; GA 10764 10795 10745; GA 10767 10799 10744;
GA 10758 10803 10743; GX 10743 10747 20953; GX 20951 20953 20965; GX 10750 20965 20931; GX 20957 20953 20925; GA 10761 10796 10742;
GA 10771 10797 10741; GX 10741 10753 20958; GX 10744 20958 20921; GA 10759 10802 10740; GA 10756 10804 10739; GX 10739 10740 20940;
GX 10745 20940 20945; GX 10746 20945 20950; GX 10754 20950 20955; GX 10742 20940 20960; GX 10751 20955 20966; GX 20952 20966 30209;
GX 20959 20966 30208; GX 10743 20960 20933; GX 20933 20934 20932; GX 20960 20931 10807; GX 20955 20930 10806; GX 20951 20950 20929;
GX 20928 20929 30212; GX 20923 20945 20922; GX 20921 20922 20920; GI 20920 20969; GX 20969 20965 30207; GA 10760 10801 10738;
GX 10738 10740 20924; GX 20924 20925 20968; GX 20968 20958 10805; GI 10807 30206; GI 10806 30211; GI 10805 30210;
GI 30210 15064; GX 30212 30211 15061; GX 30220 30207 14895; GI 30208 14881; GX 30222 30209 14886; GX 30221 14881 14880;
GX 21612 30206 14876; GX 14787 14734 14622; GX 19980 14622 30275; GX 30275 343 2255; GX 14621 30405 14619; GI 30390 14480;
GX 30397 14480 14620; GX 14619 14620 30277; GX 30277 341 2253; GX 14778 30408 14617; GX 30400 30393 14618; GX 14617 14618 30280;
GX 30280 338 2250; GX 14616 30409 14613; GX 30401 14615 14614; GX 14613 14614 30281; GX 30281 337 2249; GX 2255 2249 21012;
GX 2250 21012 10730; GX 14735 30402 14611; GX 30396 30395 14612; GX 14611 14612 30282; GX 30282 336 2248; GX 2248 2253 10731;
GX 2250 2248 21004; GX 21004 21012 10727; GX 14787 14743 14610; GX 19640 14610 30283; GX 30283 351 2247; GI 14786 14609;
GX 14609 14785 14607; GI 14743 14598; GX 14598 30397 14608; GX 14607 14608 30284; GX 30284 350 2246; GX 14784 14783 14606;
GX 30398 14606 30285; GX 30285 349 2245; GX 2246 2245 21092; GX 14605 14781 14603; GX 14598 30399 14604; GX 14603 14604 30286;
GX 30286 348 2244; GX 2246 2244 21071; GX 2245 21071 21073; GX 2244 2245 21055; GI 14789 14602; GX 14602 30358 14599;
GX 30379 14601 14600; GX 14599 14600 30232; GX 30232 354 2298; GX 14780 14779 14596; GX 14598 30400 14597; GX 14596 14597 14595;
GI 14595 30287; GX 30287 347 2243; GX 2245 2243 10664; GX 14778 14777 14594; GX 30401 14594 30288; GX 30288 346 2242;
GX 2242 21073 10648; GX 14776 14775 14593; GX 30402 14593 30289; GX 30289 345 2241; GX 2241 21073 10651; GX 2243 2241 21074;
GX 2247 2241 21080; GX 21080 21073 10650; GX 2242 21080 10660; GX 2246 10660 10656; GX 21074 2242 21039; GX 2247 21039 10659;
GA 10659 2247 10645; GA 10656 10660 10643; GX 14774 14734 14592; GX 30389 14592 30290; GX 30290 344 2240; GX 2240 2246 10663;
GX 2240 2245 10661; GX 2242 2240 21072; GX 21072 10664 10649; GX 2243 2240 10662; GX 10662 21092 10658; GX 21072 21080 10657;
GX 21092 10657 10655; GX 21071 10662 10654; GX 2247 10654 10653; GX 21074 21072 21040; GX 21071 21040 10652; GA 10658 10654 10647;
GX 10647 21074 21079; GA 10655 10653 10646; GA 10663 10648 10644; GX 10644 21072 21078; GA 10657 10650 10642; GA 10662 10651 10641;
GX 10641 21073 21075; GX 21079 21075 21085; GA 10664 10649 10640; GX 10640 10646 21084; GX 2240 21084 21099; GX 21099 21085 10638;
GX 10640 10641 21054; GX 21054 21055 21106; GX 21106 21078 21103; GX 10643 21103 10637; GA 10661 10652 10639; GX 10639 10642 21077;
GX 10639 10645 21083; GX 10640 21077 21097; GX 2242 21083 21098; GX 21078 21077 21063; GX 21075 21063 10636; GX 21084 21083 21062;
GX 21072 21062 10635; GX 10643 21097 21053; GX 2246 21053 10630; GA 10638 10637 10634; GX 10634 10636 10633; GX 10634 21098 21052;
GX 21085 21052 10629; GA 10635 10633 10632; GX 10632 21085 21100; GX 21098 21100 10631; GX 10644 10632 21047; GX 21079 21047 21043;
GX 2240 21043 21046; GX 2242 21043 21042; GA 10629 10630 10628; GX 10628 10636 10627; GX 10634 10628 10626; GX 10628 21097 21051;
GX 10628 10645 21050; GX 21050 10642 21045; GX 21045 21046 10619; GA 10636 10626 10625; GX 10625 10633 10623; GX 10625 10643 21082;
GX 21082 21103 10617; GX 2246 21082 21090; GX 21090 21051 10624; GA 10631 10623 10622; GX 10622 10635 10621; GX 10622 10646 21049;
GX 21090 21049 21041; GX 21072 21041 21048; GX 21045 21048 10620; GX 10622 21100 21044; GX 21099 21044 10618; GX 21041 21042 10616;
GA 10617 10654 10615; GA 10624 10653 10614; GA 10627 2247 10613; GA 10618 10648 10612; GX 10612 10615 21088; GI 21088 21059;
GA 10621 10660 10611; GA 10631 10650 10610; GX 10610 10613 21095; GX 21095 21059 21070; GA 10619 10651 10609; GX 10609 10615 21093;
GX 10609 10612 21064; GA 10616 10649 10608; GX 10608 10611 21087; GX 10608 21093 21066; GA 10620 10652 10607; GA 10617 10658 10606;
GA 10624 10655 10605; GA 10627 10659 10604; GA 10618 10663 10603; GX 10603 10607 21089; GX 21087 21089 21101; GX 10610 21101 21067;
GX 21093 21089 21061; GA 10621 10656 10602; GA 10631 10657 10601; GX 10601 10613 21094; GX 10604 21094 21057; GA 10619 10662 10600;
GA 10616 10664 10599; GX 10599 10600 21076; GX 10605 21076 21081; GX 10606 21081 21086; GX 10614 21086 21091; GX 10602 21076 21096;
GX 10611 21091 21102; GX 21088 21102 30167; GX 21095 21102 30166; GX 10603 21096 21069].
(** aes128_with_ks.txt:6504-6753 *)
Definition aes_enc_file_g26 : list gate := [
GX 21069 21070 21068; GX 21096 21067 10667; GX 21091 21066 10666; GX 21087 21086 21065; GX 21064 21065 30170; GX 21059 21081 21058;
GX 21057 21058 21056; GI 21056 21105; GX 21105 21101 30165; GA 10620 10661 10598; GX 10598 10600 21060; GX 21060 21061 21104;
GX 21104 21094 10665; GI 10667 30164; GI 10666 30169; GI 10665 30168; GX 14771 14733 14591; GX 19572 14591 30291;
GX 30291 295 2239; GX 14767 30432 14589; GI 30419 14506; GX 14506 30411 14590; GX 14589 14590 14588; GI 14588 30293;
GX 30293 293 2237; GI 14761 14587; GX 14587 30435 14585; GI 30422 14554; GX 14554 30414 14586; GX 14585 14586 30296;
GX 30296 290 2234; GI 14788 14584; GX 14584 30359 14582; GX 30380 30367 14583; GX 14582 14583 14581; GI 14581 30233;
GX 30233 353 2297; GX 2303 2297 20604; GX 2298 20604 11150; GX 14760 30436 14579; GX 30423 30415 14580; GX 14579 14580 30297;
GX 30297 289 2233; GX 2239 2233 21148; GX 2234 21148 10590; GX 14732 30438 14577; GX 30437 30416 14578; GX 14577 14578 30298;
GX 30298 288 2232; GX 2232 2237 10591; GX 2234 2232 21140; GX 21140 21148 10587; GX 14771 14740 14576; GX 20320 14576 30299;
GX 30299 303 2231; GI 14773 14575; GX 14575 14769 14573; GI 14740 14569; GX 14569 30411 14574; GX 14573 14574 30300;
GX 30300 302 2230; GX 14772 14767 14572; GX 30412 14572 30301; GX 30301 301 2229; GX 2230 2229 21228; GI 14770 14560;
GX 14560 14765 14570; GX 14569 30413 14571; GX 14570 14571 30302; GX 30302 300 2228; GX 2230 2228 21207; GX 2229 21207 21209;
GX 2228 2229 21191; GI 14768 14543; GX 14543 14763 14567; GX 14569 30414 14568; GX 14567 14568 30303; GX 30303 299 2227;
GX 2229 2227 10524; GX 14766 14761 14566; GX 30415 14566 30304; GX 30304 298 2226; GX 2226 21209 10508; GX 14764 14760 14565;
GX 30416 14565 30305; GX 30305 297 2225; GX 2225 21209 10511; GX 2227 2225 21210; GX 2231 2225 21216; GX 21216 21209 10510;
GX 2226 21216 10520; GX 2230 10520 10516; GX 21210 2226 21175; GX 2231 21175 10519; GA 10519 2231 10505; GA 10516 10520 10503;
GI 14762 14555; GI 14733 14498; GX 14555 14498 14564; GX 30431 14564 30306; GX 30306 296 2224; GX 2224 2230 10523;
GX 2224 2229 10521; GX 2226 2224 21208; GX 21208 10524 10509; GX 2227 2224 10522; GX 10522 21228 10518; GX 21208 21216 10517;
GX 21228 10517 10515; GX 21207 10522 10514; GX 2231 10514 10513; GX 21210 21208 21176; GX 21207 21176 10512; GA 10518 10514 10507;
GX 10507 21210 21215; GA 10515 10513 10506; GA 10523 10508 10504; GX 10504 21208 21214; GA 10517 10510 10502; GA 10522 10511 10501;
GX 10501 21209 21211; GX 21215 21211 21221; GA 10524 10509 10500; GX 10500 10506 21220; GX 2224 21220 21235; GX 21235 21221 10498;
GX 10500 10501 21190; GX 21190 21191 21242; GX 21242 21214 21239; GX 10503 21239 10497; GA 10521 10512 10499; GX 10499 10502 21213;
GX 10499 10505 21219; GX 10500 21213 21233; GX 2226 21219 21234; GX 21214 21213 21199; GX 21211 21199 10496; GX 21220 21219 21198;
GX 21208 21198 10495; GX 10503 21233 21189; GX 2230 21189 10490; GA 10498 10497 10494; GX 10494 10496 10493; GX 10494 21234 21188;
GX 21221 21188 10489; GA 10495 10493 10492; GX 10492 21221 21236; GX 21234 21236 10491; GX 10504 10492 21183; GX 21215 21183 21179;
GX 2224 21179 21182; GX 2226 21179 21178; GA 10489 10490 10488; GX 10488 10496 10487; GX 10494 10488 10486; GX 10488 21233 21187;
GX 10488 10505 21186; GX 21186 10502 21181; GX 21181 21182 10479; GA 10496 10486 10485; GX 10485 10493 10483; GX 10485 10503 21218;
GX 21218 21239 10477; GX 2230 21218 21226; GX 21226 21187 10484; GA 10491 10483 10482; GX 10482 10495 10481; GX 10482 10506 21185;
GX 21226 21185 21177; GX 21208 21177 21184; GX 21181 21184 10480; GX 10482 21236 21180; GX 21235 21180 10478; GX 21177 21178 10476;
GA 10477 10514 10475; GA 10484 10513 10474; GA 10487 2231 10473; GA 10478 10508 10472; GX 10472 10475 21224; GI 21224 21195;
GA 10481 10520 10471; GA 10491 10510 10470; GX 10470 10473 21231; GX 21231 21195 21206; GA 10479 10511 10469; GX 10469 10475 21229;
GX 10469 10472 21200; GA 10476 10509 10468; GX 10468 10471 21223; GX 10468 21229 21202; GA 10480 10512 10467; GA 10477 10518 10466;
GA 10484 10515 10465; GA 10487 10519 10464; GA 10478 10523 10463; GX 10463 10467 21225; GX 21223 21225 21237; GX 10470 21237 21203;
GX 21229 21225 21197; GA 10481 10516 10462; GA 10491 10517 10461; GX 10461 10473 21230; GX 10464 21230 21193; GA 10479 10522 10460;
GA 10476 10524 10459; GX 10459 10460 21212; GX 10465 21212 21217; GX 10466 21217 21222; GX 10474 21222 21227; GX 10462 21212 21232;
GX 10471 21227 21238; GX 21224 21238 30125; GX 21231 21238 30124; GX 10463 21232 21205; GX 21205 21206 21204; GX 21232 21203 10527;
GX 21227 21202 10526; GX 21223 21222 21201; GX 21200 21201 30128; GX 21195 21217 21194; GX 21193 21194 21192; GI 21192 21241;
GX 21241 21237 30123; GA 10480 10521 10458; GX 10458 10460 21196; GX 21196 21197 21240; GX 21240 21230 10525; GI 10527 30122;
GI 10526 30127; GI 10525 30126; GI 30126 14964; GX 30128 30127 15028; GX 30139 14964 14963; GX 30140 30127 14946;
GI 30124 14832; GX 30138 30125 14837; GX 30137 14832 14831; GX 14736 30360 14562; GX 30382 30381 14563; GX 14562 14563 30234;
GX 30234 352 2296; GX 2296 2301 11151; GX 2298 2296 20596; GX 20596 20604 11147; GX 14773 14732 14561; GX 20252 14561 30307;
GX 30307 311 2223; GX 14560 30433 14558; GI 30418 14497; GX 30425 14497 14559].
(** aes128_with_ks.txt:6754-7003 *)
Definition aes_enc_file_g27 : list gate := [
GX 14558 14559 30309; GX 30309 309 2221; GX 14764 30436 14556; GX 30428 30421 14557; GX 14556 14557 30312; GX 30312 306 2218;
GX 14555 30437 14552; GX 30429 14554 14553; GX 14552 14553 30313; GX 30313 305 2217; GX 2223 2217 21284; GX 2218 21284 10450;
GX 14733 30430 14550; GX 30424 30423 14551; GX 14550 14551 30314; GX 30314 304 2216; GX 2216 2221 10451; GX 2218 2216 21276;
GX 21276 21284 10447; GX 14773 14741 14549; GX 19912 14549 30315; GX 30315 319 2215; GI 14772 14548; GX 14548 14771 14546;
GI 14741 14540; GX 14540 30425 14547; GX 14546 14547 30316; GX 30316 318 2214; GX 14799 14744 14545; GX 19776 14545 30235;
GX 30235 367 2295; GX 2295 2289 20672; GX 2290 20672 11080; GX 20664 20672 11077; GX 2295 20631 11079; GA 11079 2295 11065;
GX 14770 14769 14544; GX 30426 14544 30317; GX 30317 317 2213; GX 2214 2213 21364; GX 14543 14767 14541; GX 14540 30427 14542;
GX 14541 14542 30318; GX 30318 316 2212; GX 2214 2212 21343; GX 2213 21343 21345; GX 2212 2213 21327; GX 14766 14765 14538;
GX 14540 30428 14539; GX 14538 14539 14537; GI 14537 30319; GX 30319 315 2211; GX 2213 2211 10384; GX 14764 14763 14536;
GX 30429 14536 30320; GX 30320 314 2210; GX 2210 21345 10368; GX 14762 14761 14535; GX 30430 14535 30321; GX 30321 313 2209;
GX 2209 21345 10371; GX 2211 2209 21346; GX 2215 2209 21352; GX 21352 21345 10370; GX 2210 21352 10380; GX 2214 10380 10376;
GX 21346 2210 21311; GX 2215 21311 10379; GA 10379 2215 10365; GA 10376 10380 10363; GX 14760 14732 14534; GX 30417 14534 30322;
GX 30322 312 2208; GX 2208 2214 10383; GX 2208 2213 10381; GX 2210 2208 21344; GX 21344 10384 10369; GX 2211 2208 10382;
GX 10382 21364 10378; GX 21344 21352 10377; GX 21364 10377 10375; GX 21343 10382 10374; GX 2215 10374 10373; GX 21346 21344 21312;
GX 21343 21312 10372; GA 10378 10374 10367; GX 10367 21346 21351; GA 10375 10373 10366; GA 10383 10368 10364; GX 10364 21344 21350;
GA 10377 10370 10362; GA 10382 10371 10361; GX 10361 21345 21347; GX 21351 21347 21357; GA 10384 10369 10360; GX 10360 10366 21356;
GX 2208 21356 21371; GX 21371 21357 10358; GX 10360 10361 21326; GX 21326 21327 21378; GX 21378 21350 21375; GX 10363 21375 10357;
GA 10381 10372 10359; GX 10359 10362 21349; GX 10359 10365 21355; GX 10360 21349 21369; GX 2210 21355 21370; GX 21350 21349 21335;
GX 21347 21335 10356; GX 21356 21355 21334; GX 21344 21334 10355; GX 10363 21369 21325; GX 2214 21325 10350; GA 10358 10357 10354;
GX 10354 10356 10353; GX 10354 21370 21324; GX 21357 21324 10349; GA 10355 10353 10352; GX 10352 21357 21372; GX 21370 21372 10351;
GX 10364 10352 21319; GX 21351 21319 21315; GX 2208 21315 21318; GX 2210 21315 21314; GA 10349 10350 10348; GX 10348 10356 10347;
GX 10354 10348 10346; GX 10348 21369 21323; GX 10348 10365 21322; GX 21322 10362 21317; GX 21317 21318 10339; GA 10356 10346 10345;
GX 10345 10353 10343; GX 10345 10363 21354; GX 21354 21375 10337; GX 2214 21354 21362; GX 21362 21323 10344; GA 10351 10343 10342;
GX 10342 10355 10341; GX 10342 10366 21321; GX 21362 21321 21313; GX 21344 21313 21320; GX 21317 21320 10340; GX 10342 21372 21316;
GX 21371 21316 10338; GX 21313 21314 10336; GA 10337 10374 10335; GA 10344 10373 10334; GA 10347 2215 10333; GA 10338 10368 10332;
GX 10332 10335 21360; GI 21360 21331; GA 10341 10380 10331; GA 10351 10370 10330; GX 10330 10333 21367; GX 21367 21331 21342;
GA 10339 10371 10329; GX 10329 10335 21365; GX 10329 10332 21336; GA 10336 10369 10328; GX 10328 10331 21359; GX 10328 21365 21338;
GA 10340 10372 10327; GA 10337 10378 10326; GA 10344 10375 10325; GA 10347 10379 10324; GA 10338 10383 10323; GX 10323 10327 21361;
GX 21359 21361 21373; GX 10330 21373 21339; GX 21365 21361 21333; GA 10341 10376 10322; GA 10351 10377 10321; GX 10321 10333 21366;
GX 10324 21366 21329; GA 10339 10382 10320; GA 10336 10384 10319; GX 10319 10320 21348; GX 10325 21348 21353; GX 10326 21353 21358;
GX 10334 21358 21363; GX 10322 21348 21368; GX 10331 21363 21374; GX 21360 21374 30195; GX 21367 21374 30194; GX 10323 21368 21341;
GX 21341 21342 21340; GX 21368 21339 10387; GX 21363 21338 10386; GX 21359 21358 21337; GX 21336 21337 30198; GX 21331 21353 21330;
GX 21329 21330 21328; GI 21328 21377; GX 21377 21373 30193; GA 10340 10381 10318; GX 10318 10320 21332; GX 21332 21333 21376;
GX 21376 21366 10385; GI 10387 30192; GI 10386 30197; GI 10385 30196; GX 14757 14731 14533; GX 19844 14533 30323;
GX 30323 263 2207; GX 2207 2201 21420; GX 2202 21420 10310; GX 21412 21420 10307; GX 14753 30439 14531; GX 30460 30447 14532;
GX 14531 14532 30325; GX 30325 261 2205; GX 2200 2205 10311; GX 14801 14797 14528; GX 14530 30355 14529; GX 14528 14529 14527;
GI 14527 30236; GX 30236 366 2294; GX 2288 2294 11083; GX 2294 11080 11076; GX 2294 2292 20663; GX 2293 20663 20665;
GX 2289 20665 11071; GX 2290 20665 11068; GX 20672 20665 11070; GX 2294 2293 20684; GX 11082 20684 11078; GX 20684 11077 11075;
GX 20663 11082 11074; GX 2295 11074 11073; GX 20663 20632 11072; GA 11078 11074 11067; GX 11067 20666 20671; GA 11075 11073 11066;
GX 11060 11066 20676; GX 2288 20676 20691; GA 11083 11068 11064; GX 11064 20664 20670; GA 11076 11080 11063; GA 11077 11070 11062;
GA 11082 11071 11061; GX 11061 20665 20667; GX 20671 20667 20677; GX 20691 20677 11058; GX 11060 11061 20646; GX 20646 20647 20698;
GX 20698 20670 20695; GX 11063 20695 11057; GA 11081 11072 11059; GX 11059 11062 20669].
(** aes128_with_ks.txt:7004-7253 *)
Definition aes_enc_file_g28 : list gate := [
GX 11059 11065 20675; GX 11060 20669 20689; GX 2290 20675 20690; GX 20670 20669 20655; GX 20667 20655 11056; GX 20676 20675 20654;
GX 20664 20654 11055; GX 11063 20689 20645; GX 2294 20645 11050; GA 11058 11057 11054; GX 11054 11056 11053; GX 11054 20690 20644;
GX 20677 20644 11049; GA 11055 11053 11052; GX 11052 20677 20692; GX 20690 20692 11051; GX 11064 11052 20639; GX 20671 20639 20635;
GX 2288 20635 20638; GX 2290 20635 20634; GA 11049 11050 11048; GX 11048 11056 11047; GX 11054 11048 11046; GX 11048 20689 20643;
GX 11048 11065 20642; GX 20642 11062 20637; GX 20637 20638 11039; GA 11056 11046 11045; GX 11045 11053 11043; GX 11045 11063 20674;
GX 20674 20695 11037; GX 2294 20674 20682; GX 20682 20643 11044; GA 11051 11043 11042; GX 11042 11055 11041; GX 11042 11066 20641;
GX 20682 20641 20633; GX 20664 20633 20640; GX 20637 20640 11040; GX 11042 20692 20636; GX 20691 20636 11038; GX 20633 20634 11036;
GA 11037 11074 11035; GA 11044 11073 11034; GA 11047 2295 11033; GA 11038 11068 11032; GX 11032 11035 20680; GI 20680 20651;
GA 11041 11080 11031; GA 11051 11070 11030; GX 11030 11033 20687; GX 20687 20651 20662; GA 11039 11071 11029; GX 11029 11035 20685;
GX 11029 11032 20656; GA 11036 11069 11028; GX 11028 11031 20679; GX 11028 20685 20658; GA 11040 11072 11027; GA 11037 11078 11026;
GA 11044 11075 11025; GA 11047 11079 11024; GA 11038 11083 11023; GX 11023 11027 20681; GX 20679 20681 20693; GX 11030 20693 20659;
GX 20685 20681 20653; GA 11041 11076 11022; GA 11051 11077 11021; GX 11021 11033 20686; GX 11024 20686 20649; GA 11039 11082 11020;
GA 11036 11084 11019; GX 11019 11020 20668; GX 11025 20668 20673; GX 11026 20673 20678; GX 11034 20678 20683; GX 11022 20668 20688;
GX 11031 20683 20694; GX 20680 20694 30181; GX 20687 20694 30180; GX 11023 20688 20661; GX 20661 20662 20660; GX 20688 20659 11087;
GX 20683 20658 11086; GX 20679 20678 20657; GX 20656 20657 30184; GX 20651 20673 20650; GX 20649 20650 20648; GI 20648 20697;
GX 20697 20693 30179; GA 11040 11081 11018; GX 11018 11020 20652; GX 20652 20653 20696; GX 20696 20686 11085; GI 11087 30178;
GI 11086 30183; GI 11085 30182; GI 30179 14869; GI 30182 14917; GI 30178 14860; GX 30184 30183 14914;
GI 30180 14866; GX 14730 30463 14526; GI 14526 14524; GI 30448 14518; GX 30455 14518 14525; GX 14524 14525 14802;
GX 14802 14752 30343; GX 30343 275 2187; GX 2187 2185 21550; GX 2187 2184 10172; GX 2189 2187 10174; GX 21548 10174 10159;
GX 21550 21548 21516; GX 21550 2186 21515; GX 2191 21515 10169; GA 10169 2191 10155; GA 10174 10159 10150; GX 14731 30441 14522;
GX 30462 30449 14523; GX 14522 14523 14803; GX 14803 14749 30327; GX 30327 259 2203; GX 2203 2201 21414; GX 2203 2200 10312;
GX 2205 2203 10314; GX 21412 10314 10299; GX 21414 21412 21380; GX 21414 2202 21379; GX 2207 21379 10309; GA 10309 2207 10295;
GA 10314 10299 10290; GX 14730 30462 14520; GX 30454 30447 14521; GX 14520 14521 14804; GX 14804 14754 30342; GX 30342 276 2188;
GX 2188 2189 21531; GX 14519 30440 14516; GX 30461 14518 14517; GX 14516 14517 14805; GX 14805 14751 30326; GX 30326 260 2204;
GX 2204 2205 21395; GX 14730 30460 14514; GX 20184 19844 14515; GX 14514 14515 14806; GX 14806 14758 30340; GX 30340 278 2190;
GX 2184 2190 10173; GX 2190 10170 10166; GX 2190 2188 21547; GX 2189 21547 21549; GX 2185 21549 10161; GX 2186 21549 10158;
GX 21556 21549 10160; GX 2190 2189 21568; GX 10172 21568 10168; GX 21568 10167 10165; GX 21547 10172 10164; GX 2191 10164 10163;
GX 21547 21516 10162; GA 10168 10164 10157; GX 10157 21550 21555; GA 10165 10163 10156; GX 10150 10156 21560; GX 2184 21560 21575;
GA 10173 10158 10154; GX 10154 21548 21554; GA 10166 10170 10153; GA 10167 10160 10152; GA 10172 10161 10151; GX 10151 21549 21551;
GX 21555 21551 21561; GX 21575 21561 10148; GX 10150 10151 21530; GX 21530 21531 21582; GX 21582 21554 21579; GX 10153 21579 10147;
GA 10171 10162 10149; GX 10149 10152 21553; GX 10149 10155 21559; GX 10150 21553 21573; GX 2186 21559 21574; GX 21554 21553 21539;
GX 21551 21539 10146; GX 21560 21559 21538; GX 21548 21538 10145; GX 10153 21573 21529; GX 2190 21529 10140; GA 10148 10147 10144;
GX 10144 10146 10143; GX 10144 21574 21528; GX 21561 21528 10139; GA 10145 10143 10142; GX 10142 21561 21576; GX 21574 21576 10141;
GX 10154 10142 21523; GX 21555 21523 21519; GX 2184 21519 21522; GX 2186 21519 21518; GA 10139 10140 10138; GX 10138 10146 10137;
GX 10144 10138 10136; GX 10138 21573 21527; GX 10138 10155 21526; GX 21526 10152 21521; GX 21521 21522 10129; GA 10146 10136 10135;
GX 10135 10143 10133; GX 10135 10153 21558; GX 21558 21579 10127; GX 2190 21558 21566; GX 21566 21527 10134; GA 10141 10133 10132;
GX 10132 10145 10131; GX 10132 10156 21525; GX 21566 21525 21517; GX 21548 21517 21524; GX 21521 21524 10130; GX 10132 21576 21520;
GX 21575 21520 10128; GX 21517 21518 10126; GA 10127 10164 10125; GA 10134 10163 10124; GA 10137 2191 10123; GA 10128 10158 10122;
GX 10122 10125 21564; GI 21564 21535; GA 10131 10170 10121; GA 10141 10160 10120; GX 10120 10123 21571; GX 21571 21535 21546;
GA 10129 10161 10119; GX 10119 10125 21569; GX 10119 10122 21540; GA 10126 10159 10118; GX 10118 10121 21563; GX 10118 21569 21542;
GA 10130 10162 10117; GA 10127 10168 10116; GA 10134 10165 10115; GA 10137 10169 10114; GA 10128 10173 10113; GX 10113 10117 21565;
GX 21563 21565 21577; GX 10120 21577 21543; GX 21569 21565 21537; GA 10131 10166 10112].
(** aes128_with_ks.txt:7254-7503 *)
Definition aes_enc_file_g29 : list gate := [
GA 10141 10167 10111; GX 10111 10123 21570; GX 10114 21570 21533; GA 10129 10172 10110; GA 10126 10174 10109; GX 10109 10110 21552;
GX 10115 21552 21557; GX 10116 21557 21562; GX 10124 21562 21567; GX 10112 21552 21572; GX 10121 21567 21578; GX 21564 21578 30132;
GX 21571 21578 30131; GX 10113 21572 21545; GX 21545 21546 21544; GX 21572 21543 10177; GX 21567 21542 10176; GX 21563 21562 21541;
GX 21540 21541 30135; GX 21535 21557 21534; GX 21533 21534 21532; GI 21532 21581; GX 21581 21577 30130; GA 10130 10171 10108;
GX 10108 10110 21536; GX 21536 21537 21580; GX 21580 21570 10175; GI 10177 30129; GI 10176 30134; GI 10175 30133;
GX 30128 30135 15099; GX 30135 30142 15108; GX 30134 30141 15151; GX 30133 30140 15152; GX 30132 30139 15154; GX 30131 30138 15156;
GX 30130 30137 15158; GX 30129 30136 15160; GX 21544 20796 15162; GX 30137 30129 15035; GX 30132 30125 15033; GX 30133 14964 15030;
GI 15108 15017; GX 15017 30129 15024; GX 15017 30131 15020; GX 15017 30132 15016; GX 15158 30136 15012; GX 15151 15099 15010;
GI 15152 14965; GI 15151 14947; GX 15099 30139 14840; GI 14840 14838; GX 30131 14832 14839; GX 14838 14839 15183;
GX 15099 30138 14834; GX 30130 30123 14835; GX 14834 14835 15185; GX 15099 21204 14828; GX 30136 21544 14829; GX 14828 14829 15187;
GX 14731 19504 14512; GX 20524 30446 14513; GX 14512 14513 14807; GX 14807 14755 30324; GX 30324 262 2206; GX 2200 2206 10313;
GX 2206 10310 10306; GX 2206 2204 21411; GX 2205 21411 21413; GX 2201 21413 10301; GX 2202 21413 10298; GX 21420 21413 10300;
GX 2206 2205 21432; GX 10312 21432 10308; GX 21432 10307 10305; GX 21411 10312 10304; GX 2207 10304 10303; GX 21411 21380 10302;
GA 10308 10304 10297; GX 10297 21414 21419; GA 10305 10303 10296; GX 10290 10296 21424; GX 2200 21424 21439; GA 10313 10298 10294;
GX 10294 21412 21418; GA 10306 10310 10293; GA 10307 10300 10292; GA 10312 10301 10291; GX 10291 21413 21415; GX 21419 21415 21425;
GX 21439 21425 10288; GX 10290 10291 21394; GX 21394 21395 21446; GX 21446 21418 21443; GX 10293 21443 10287; GA 10311 10302 10289;
GX 10289 10292 21417; GX 10289 10295 21423; GX 10290 21417 21437; GX 2202 21423 21438; GX 21418 21417 21403; GX 21415 21403 10286;
GX 21424 21423 21402; GX 21412 21402 10285; GX 10293 21437 21393; GX 2206 21393 10280; GA 10288 10287 10284; GX 10284 10286 10283;
GX 10284 21438 21392; GX 21425 21392 10279; GA 10285 10283 10282; GX 10282 21425 21440; GX 21438 21440 10281; GX 10294 10282 21387;
GX 21419 21387 21383; GX 2200 21383 21386; GX 2202 21383 21382; GA 10279 10280 10278; GX 10278 10286 10277; GX 10284 10278 10276;
GX 10278 21437 21391; GX 10278 10295 21390; GX 21390 10292 21385; GX 21385 21386 10269; GA 10286 10276 10275; GX 10275 10283 10273;
GX 10275 10293 21422; GX 21422 21443 10267; GX 2206 21422 21430; GX 21430 21391 10274; GA 10281 10273 10272; GX 10272 10285 10271;
GX 10272 10296 21389; GX 21430 21389 21381; GX 21412 21381 21388; GX 21385 21388 10270; GX 10272 21440 21384; GX 21439 21384 10268;
GX 21381 21382 10266; GA 10267 10304 10265; GA 10274 10303 10264; GA 10277 2207 10263; GA 10268 10298 10262; GX 10262 10265 21428;
GI 21428 21399; GA 10271 10310 10261; GA 10281 10300 10260; GX 10260 10263 21435; GX 21435 21399 21410; GA 10269 10301 10259;
GX 10259 10265 21433; GX 10259 10262 21404; GA 10266 10299 10258; GX 10258 10261 21427; GX 10258 21433 21406; GA 10270 10302 10257;
GA 10267 10308 10256; GA 10274 10305 10255; GA 10277 10309 10254; GA 10268 10313 10253; GX 10253 10257 21429; GX 21427 21429 21441;
GX 10260 21441 21407; GX 21433 21429 21401; GA 10271 10306 10252; GA 10281 10307 10251; GX 10251 10263 21434; GX 10254 21434 21397;
GA 10269 10312 10250; GA 10266 10314 10249; GX 10249 10250 21416; GX 10255 21416 21421; GX 10256 21421 21426; GX 10264 21426 21431;
GX 10252 21416 21436; GX 10261 21431 21442; GX 21428 21442 30174; GX 21435 21442 30173; GX 10253 21436 21409; GX 21409 21410 21408;
GX 21436 21407 10317; GX 21431 21406 10316; GX 21427 21426 21405; GX 21404 21405 30177; GX 21399 21421 21398; GX 21397 21398 21396;
GI 21396 21445; GX 21445 21441 30172; GA 10270 10311 10248; GX 10248 10250 21400; GX 21400 21401 21444; GX 21444 21434 10315;
GI 10317 30171; GI 10316 30176; GI 10315 30175; GX 30177 30198 15096; GX 30177 30184 15103; GX 30176 30183 15125;
GX 30175 30182 15127; GX 30174 30181 15129; GX 30173 30180 15131; GX 30172 30179 15133; GX 30171 30178 15135; GX 21408 20660 15136;
GX 14869 30171 14953; GX 14917 30174 14949; GX 30183 30175 14943; GX 30197 30176 14941; GI 15136 14938; GI 15103 14932;
GX 14932 30171 14937; GI 15133 14923; GX 14932 30173 14934; GI 15131 14906; GX 14932 30174 14931; GI 15125 14918;
GI 15096 14861; GX 14918 14861 14927; GX 14923 30193 14921; GX 15127 30196 14919; GX 14918 30197 14915; GI 15135 14911;
GX 15096 30194 14871; GX 30181 30173 14872; GX 14871 14872 15172; GX 14861 30193 14864; GX 14866 30172 14865; GX 14864 14865 15174;
GX 14861 21340 14858; GX 14860 21408 14859; GX 14858 14859 15176; GI 14732 14507; GX 14507 30435 14510; GI 30420 14503;
GX 30427 14503 14511; GX 14510 14511 14808; GX 14808 14766 30311; GX 30311 307 2219; GX 2219 2217 21278; GX 2219 2216 10452;
GX 2221 2219 10454; GX 21276 10454 10439; GX 21278 21276 21244; GX 21278 2218 21243; GX 2223 21243 10449; GA 10449 2223 10435;
GA 10454 10439 10430; GX 14733 30434 14508; GX 30421 30413 14509; GX 14508 14509 14809].
(** aes128_with_ks.txt:7504-7753 *)
Definition aes_enc_file_g30 : list gate := [
GX 14809 14763 30295; GX 30295 291 2235; GX 2235 2233 21142; GX 2235 2232 10592; GX 2237 2235 10594; GX 21140 10594 10579;
GX 21142 21140 21108; GX 21142 2234 21107; GX 2239 21107 10589; GA 10589 2239 10575; GA 10594 10579 10570; GX 14507 30434 14504;
GX 30426 14506 14505; GX 14504 14505 14810; GX 14810 14768 30310; GX 30310 308 2220; GX 2220 2221 21259; GX 14498 30433 14501;
GX 14503 30412 14502; GX 14501 14502 14811; GX 14811 14765 30294; GX 30294 292 2236; GX 2236 2237 21123; GX 14732 30432 14499;
GX 19912 19572 14500; GX 14499 14500 14812; GX 14812 14772 30308; GX 30308 310 2222; GX 2216 2222 10453; GX 2222 10450 10446;
GX 2222 2220 21275; GX 2221 21275 21277; GX 2217 21277 10441; GX 2218 21277 10438; GX 21284 21277 10440; GX 2222 2221 21296;
GX 10452 21296 10448; GX 21296 10447 10445; GX 21275 10452 10444; GX 2223 10444 10443; GX 21275 21244 10442; GA 10448 10444 10437;
GX 10437 21278 21283; GA 10445 10443 10436; GX 10430 10436 21288; GX 2216 21288 21303; GA 10453 10438 10434; GX 10434 21276 21282;
GA 10446 10450 10433; GA 10447 10440 10432; GA 10452 10441 10431; GX 10431 21277 21279; GX 21283 21279 21289; GX 21303 21289 10428;
GX 10430 10431 21258; GX 21258 21259 21310; GX 21310 21282 21307; GX 10433 21307 10427; GA 10451 10442 10429; GX 10429 10432 21281;
GX 10429 10435 21287; GX 10430 21281 21301; GX 2218 21287 21302; GX 21282 21281 21267; GX 21279 21267 10426; GX 21288 21287 21266;
GX 21276 21266 10425; GX 10433 21301 21257; GX 2222 21257 10420; GA 10428 10427 10424; GX 10424 10426 10423; GX 10424 21302 21256;
GX 21289 21256 10419; GA 10425 10423 10422; GX 10422 21289 21304; GX 21302 21304 10421; GX 10434 10422 21251; GX 21283 21251 21247;
GX 2216 21247 21250; GX 2218 21247 21246; GA 10419 10420 10418; GX 10418 10426 10417; GX 10424 10418 10416; GX 10418 21301 21255;
GX 10418 10435 21254; GX 21254 10432 21249; GX 21249 21250 10409; GA 10426 10416 10415; GX 10415 10423 10413; GX 10415 10433 21286;
GX 21286 21307 10407; GX 2222 21286 21294; GX 21294 21255 10414; GA 10421 10413 10412; GX 10412 10425 10411; GX 10412 10436 21253;
GX 21294 21253 21245; GX 21276 21245 21252; GX 21249 21252 10410; GX 10412 21304 21248; GX 21303 21248 10408; GX 21245 21246 10406;
GA 10407 10444 10405; GA 10414 10443 10404; GA 10417 2223 10403; GA 10408 10438 10402; GX 10402 10405 21292; GI 21292 21263;
GA 10411 10450 10401; GA 10421 10440 10400; GX 10400 10403 21299; GX 21299 21263 21274; GA 10409 10441 10399; GX 10399 10405 21297;
GX 10399 10402 21268; GA 10406 10439 10398; GX 10398 10401 21291; GX 10398 21297 21270; GA 10410 10442 10397; GA 10407 10448 10396;
GA 10414 10445 10395; GA 10417 10449 10394; GA 10408 10453 10393; GX 10393 10397 21293; GX 21291 21293 21305; GX 10400 21305 21271;
GX 21297 21293 21265; GA 10411 10446 10392; GA 10421 10447 10391; GX 10391 10403 21298; GX 10394 21298 21261; GA 10409 10452 10390;
GA 10406 10454 10389; GX 10389 10390 21280; GX 10395 21280 21285; GX 10396 21285 21290; GX 10404 21290 21295; GX 10392 21280 21300;
GX 10401 21295 21306; GX 21292 21306 30216; GX 21299 21306 30215; GX 10393 21300 21273; GX 21273 21274 21272; GX 21300 21271 10457;
GX 21295 21270 10456; GX 21291 21290 21269; GX 21268 21269 30219; GX 21263 21285 21262; GX 21261 21262 21260; GI 21260 21309;
GX 21309 21305 30214; GA 10410 10451 10388; GX 10388 10390 21264; GX 21264 21265 21308; GX 21308 21298 10455; GI 10457 30213;
GI 10456 30218; GI 10455 30217; GX 30212 30219 15093; GX 30219 30226 15102; GX 30218 30225 15109; GX 30217 30224 15110;
GX 30216 30223 15112; GX 30215 30222 15114; GX 30214 30221 15116; GX 30213 30220 15118; GX 21272 21612 15120; GI 15110 15091;
GX 15091 30223 15089; GX 15109 30224 15087; GX 15093 30226 15085; GI 30213 15055; GX 15055 30206 15070; GI 30216 15048;
GX 15048 30209 15068; GX 30217 15064 15063; GX 15102 15055 15054; GX 15102 30215 15050; GX 15102 15048 15047; GX 15109 15093 15042;
GX 15093 30223 14889; GI 14889 14887; GX 30215 14881 14888; GX 14887 14888 15165; GX 15093 30222 14883; GX 30214 30207 14884;
GX 14883 14884 15167; GX 15093 30220 14877; GX 21272 20932 14878; GX 14877 14878 15169; GX 14498 20252 14495; GX 14497 20320 14496;
GX 14495 14496 14813; GX 14813 14769 30292; GX 30292 294 2238; GX 2232 2238 10593; GX 2238 10590 10586; GX 2238 2236 21139;
GX 2237 21139 21141; GX 2233 21141 10581; GX 2234 21141 10578; GX 21148 21141 10580; GX 2238 2237 21160; GX 10592 21160 10588;
GX 21160 10587 10585; GX 21139 10592 10584; GX 2239 10584 10583; GX 21139 21108 10582; GA 10588 10584 10577; GX 10577 21142 21147;
GA 10585 10583 10576; GX 10570 10576 21152; GX 2232 21152 21167; GA 10593 10578 10574; GX 10574 21140 21146; GA 10586 10590 10573;
GA 10587 10580 10572; GA 10592 10581 10571; GX 10571 21141 21143; GX 21147 21143 21153; GX 21167 21153 10568; GX 10570 10571 21122;
GX 21122 21123 21174; GX 21174 21146 21171; GX 10573 21171 10567; GA 10591 10582 10569; GX 10569 10572 21145; GX 10569 10575 21151;
GX 10570 21145 21165; GX 2234 21151 21166; GX 21146 21145 21131; GX 21143 21131 10566; GX 21152 21151 21130; GX 21140 21130 10565;
GX 10573 21165 21121; GX 2238 21121 10560; GA 10568 10567 10564; GX 10564 10566 10563; GX 10564 21166 21120; GX 21153 21120 10559;
GA 10565 10563 10562; GX 10562 21153 21168; GX 21166 21168 10561; GX 10574 10562 21115; GX 21147 21115 21111; GX 2232 21111 21114;
GX 2234 21111 21110; GA 10559 10560 10558; GX 10558 10566 10557; GX 10564 10558 10556].
(** aes128_with_ks.txt:7754-8003 *)
Definition aes_enc_file_g31 : list gate := [
GX 10558 21165 21119; GX 10558 10575 21118; GX 21118 10572 21113; GX 21113 21114 10549; GA 10566 10556 10555; GX 10555 10563 10553;
GX 10555 10573 21150; GX 21150 21171 10547; GX 2238 21150 21158; GX 21158 21119 10554; GA 10561 10553 10552; GX 10552 10565 10551;
GX 10552 10576 21117; GX 21158 21117 21109; GX 21140 21109 21116; GX 21113 21116 10550; GX 10552 21168 21112; GX 21167 21112 10548;
GX 21109 21110 10546; GA 10547 10584 10545; GA 10554 10583 10544; GA 10557 2239 10543; GA 10548 10578 10542; GX 10542 10545 21156;
GI 21156 21127; GA 10551 10590 10541; GA 10561 10580 10540; GX 10540 10543 21163; GX 21163 21127 21138; GA 10549 10581 10539;
GX 10539 10545 21161; GX 10539 10542 21132; GA 10546 10579 10538; GX 10538 10541 21155; GX 10538 21161 21134; GA 10550 10582 10537;
GA 10547 10588 10536; GA 10554 10585 10535; GA 10557 10589 10534; GA 10548 10593 10533; GX 10533 10537 21157; GX 21155 21157 21169;
GX 10540 21169 21135; GX 21161 21157 21129; GA 10551 10586 10532; GA 10561 10587 10531; GX 10531 10543 21162; GX 10534 21162 21125;
GA 10549 10592 10530; GA 10546 10594 10529; GX 10529 10530 21144; GX 10535 21144 21149; GX 10536 21149 21154; GX 10544 21154 21159;
GX 10532 21144 21164; GX 10541 21159 21170; GX 21156 21170 30146; GX 21163 21170 30145; GX 10533 21164 21137; GX 21137 21138 21136;
GX 21164 21135 10597; GX 21159 21134 10596; GX 21155 21154 21133; GX 21132 21133 30149; GX 21127 21149 21126; GX 21125 21126 21124;
GI 21124 21173; GX 21173 21169 30144; GA 10550 10591 10528; GX 10528 10530 21128; GX 21128 21129 21172; GX 21172 21162 10595;
GI 10597 30143; GI 10596 30148; GI 10595 30147; GX 30149 30170 15098; GX 30149 30156 15105; GX 30148 30155 15139;
GX 30147 30154 15141; GX 30146 30153 15143; GX 30145 30152 15145; GX 30144 30151 15147; GX 30143 30150 15149; GX 21136 21476 15150;
GX 14852 30143 15008; GX 14978 30146 15004; GX 30155 30147 15002; GX 30169 30148 15000; GI 15150 14997; GI 15105 14991;
GX 14991 30143 14996; GI 15147 14984; GX 14991 30145 14993; GI 15145 14968; GX 14991 30146 14990; GI 15139 14979;
GI 15098 14844; GX 14979 14844 14986; GX 14984 30165 14982; GX 15141 30168 14980; GX 14979 30169 14976; GI 15149 14972;
GX 15098 30166 14854; GX 30153 30145 14855; GX 14854 14855 15178; GX 14844 30165 14847; GX 14849 30144 14848; GX 14847 14848 15180;
GX 14844 21068 14841; GX 14843 21136 14842; GX 14841 14842 15182; GI 14734 14490; GX 14490 30407 14493; GI 30392 14486;
GX 30399 14486 14494; GX 14493 14494 14814; GX 14814 14780 30279; GX 30279 339 2251; GX 2251 2249 21006; GX 2251 2248 10732;
GX 2253 2251 10734; GX 21004 10734 10719; GX 21006 21004 20972; GX 21006 2250 20971; GX 2255 20971 10729; GA 10729 2255 10715;
GA 10734 10719 10710; GX 14735 30406 14491; GX 30393 30385 14492; GX 14491 14492 14815; GX 14815 14777 30263; GX 30263 323 2267;
GX 2267 2265 20870; GX 2267 2264 10872; GX 2269 2267 10874; GX 20868 10874 10859; GX 20870 20868 20836; GX 20870 2266 20835;
GX 2271 20835 10869; GA 10869 2271 10855; GA 10874 10859 10850; GX 14490 30406 14487; GX 30398 14489 14488; GX 14487 14488 14816;
GX 14816 14782 30278; GX 30278 340 2252; GX 2252 2253 20987; GX 14481 30405 14484; GX 14486 30384 14485; GX 14484 14485 14817;
GX 14817 14779 30262; GX 30262 324 2268; GX 2268 2269 20851; GX 14734 30404 14482; GX 19640 20388 14483; GX 14482 14483 14818;
GX 14818 14786 30276; GX 30276 342 2254; GX 2248 2254 10733; GX 2254 10730 10726; GX 2254 2252 21003; GX 2253 21003 21005;
GX 2249 21005 10721; GX 2250 21005 10718; GX 21012 21005 10720; GX 2254 2253 21024; GX 10732 21024 10728; GX 21024 10727 10725;
GX 21003 10732 10724; GX 2255 10724 10723; GX 21003 20972 10722; GA 10728 10724 10717; GX 10717 21006 21011; GA 10725 10723 10716;
GX 10710 10716 21016; GX 2248 21016 21031; GA 10733 10718 10714; GX 10714 21004 21010; GA 10726 10730 10713; GA 10727 10720 10712;
GA 10732 10721 10711; GX 10711 21005 21007; GX 21011 21007 21017; GX 21031 21017 10708; GX 10710 10711 20986; GX 20986 20987 21038;
GX 21038 21010 21035; GX 10713 21035 10707; GA 10731 10722 10709; GX 10709 10712 21009; GX 10709 10715 21015; GX 10710 21009 21029;
GX 2250 21015 21030; GX 21010 21009 20995; GX 21007 20995 10706; GX 21016 21015 20994; GX 21004 20994 10705; GX 10713 21029 20985;
GX 2254 20985 10700; GA 10708 10707 10704; GX 10704 10706 10703; GX 10704 21030 20984; GX 21017 20984 10699; GA 10705 10703 10702;
GX 10702 21017 21032; GX 21030 21032 10701; GX 10714 10702 20979; GX 21011 20979 20975; GX 2248 20975 20978; GX 2250 20975 20974;
GA 10699 10700 10698; GX 10698 10706 10697; GX 10704 10698 10696; GX 10698 21029 20983; GX 10698 10715 20982; GX 20982 10712 20977;
GX 20977 20978 10689; GA 10706 10696 10695; GX 10695 10703 10693; GX 10695 10713 21014; GX 21014 21035 10687; GX 2254 21014 21022;
GX 21022 20983 10694; GA 10701 10693 10692; GX 10692 10705 10691; GX 10692 10716 20981; GX 21022 20981 20973; GX 21004 20973 20980;
GX 20977 20980 10690; GX 10692 21032 20976; GX 21031 20976 10688; GX 20973 20974 10686; GA 10687 10724 10685; GA 10694 10723 10684;
GA 10697 2255 10683; GA 10688 10718 10682; GX 10682 10685 21020; GI 21020 20991; GA 10691 10730 10681; GA 10701 10720 10680;
GX 10680 10683 21027; GX 21027 20991 21002; GA 10689 10721 10679; GX 10679 10685 21025; GX 10679 10682 20996; GA 10686 10719 10678;
GX 10678 10681 21019; GX 10678 21025 20998; GA 10690 10722 10677; GA 10687 10728 10676].
(** aes128_with_ks.txt:8004-8253 *)
Definition aes_enc_file_g32 : list gate := [
GA 10694 10725 10675; GA 10697 10729 10674; GA 10688 10733 10673; GX 10673 10677 21021; GX 21019 21021 21033; GX 10680 21033 20999;
GX 21025 21021 20993; GA 10691 10726 10672; GA 10701 10727 10671; GX 10671 10683 21026; GX 10674 21026 20989; GA 10689 10732 10670;
GA 10686 10734 10669; GX 10669 10670 21008; GX 10675 21008 21013; GX 10676 21013 21018; GX 10684 21018 21023; GX 10672 21008 21028;
GX 10681 21023 21034; GX 21020 21034 30188; GX 21027 21034 30187; GX 10673 21028 21001; GX 21001 21002 21000; GX 21028 20999 10737;
GX 21023 20998 10736; GX 21019 21018 20997; GX 20996 20997 30191; GX 20991 21013 20990; GX 20989 20990 20988; GI 20988 21037;
GX 21037 21033 30186; GA 10690 10731 10668; GX 10668 10670 20992; GX 20992 20993 21036; GX 21036 21026 10735; GI 10737 30185;
GI 10736 30190; GI 10735 30189; GX 30184 30191 15095; GX 30191 30198 15104; GX 30190 30197 15123; GX 30189 30196 15124;
GX 30188 30195 15126; GX 15172 15126 30055; GX 30055 419 2107; GX 30187 30194 15128; GX 15174 15128 30054; GX 30054 420 2108;
GX 30186 30193 15130; GX 30185 30192 15132; GX 15176 15132 30052; GX 30052 422 2110; GX 2110 2108 22227; GX 21000 21340 15134;
GX 15134 15096 14954; GX 20660 14954 30051; GX 30051 423 2111; GX 15130 30192 14952; GX 14952 14953 14951; GI 14951 30053;
GX 30053 421 2109; GX 2109 22227 22229; GX 2110 2109 22248; GX 2109 2107 9474; GX 2108 2109 22211; GI 15124 14950;
GX 14950 30195 14948; GX 14948 14949 30056; GX 30056 418 2106; GX 2106 22229 9458; GX 15123 30196 14942; GX 14942 14943 30057;
GX 30057 417 2105; GX 2105 22229 9461; GX 2107 2105 22230; GX 2111 2105 22236; GX 22236 22229 9460; GX 2106 22236 9470;
GX 2110 9470 9466; GX 22230 2106 22195; GX 2111 22195 9469; GA 9469 2111 9455; GA 9466 9470 9453; GX 15095 30198 14940;
GX 14940 14941 30058; GX 30058 416 2104; GX 2104 2110 9473; GX 2104 2109 9471; GX 2106 2104 22228; GX 22228 9474 9459;
GX 2107 2104 9472; GX 9472 22248 9468; GX 22228 22236 9467; GX 22248 9467 9465; GX 22227 9472 9464; GX 2111 9464 9463;
GX 22230 22228 22196; GX 22227 22196 9462; GA 9468 9464 9457; GX 9457 22230 22235; GA 9465 9463 9456; GA 9473 9458 9454;
GX 9454 22228 22234; GA 9467 9460 9452; GA 9472 9461 9451; GX 9451 22229 22231; GX 22235 22231 22241; GA 9474 9459 9450;
GX 9450 9456 22240; GX 2104 22240 22255; GX 22255 22241 9448; GX 9450 9451 22210; GX 22210 22211 22262; GX 22262 22234 22259;
GX 9453 22259 9447; GA 9471 9462 9449; GX 9449 9452 22233; GX 9449 9455 22239; GX 9450 22233 22253; GX 2106 22239 22254;
GX 22234 22233 22219; GX 22231 22219 9446; GX 22240 22239 22218; GX 22228 22218 9445; GX 9453 22253 22209; GX 2110 22209 9440;
GA 9448 9447 9444; GX 9444 9446 9443; GX 9444 22254 22208; GX 22241 22208 9439; GA 9445 9443 9442; GX 9442 22241 22256;
GX 22254 22256 9441; GX 9454 9442 22203; GX 22235 22203 22199; GX 2104 22199 22202; GX 2106 22199 22198; GA 9439 9440 9438;
GX 9438 9446 9437; GX 9444 9438 9436; GX 9438 22253 22207; GX 9438 9455 22206; GX 22206 9452 22201; GX 22201 22202 9429;
GA 9446 9436 9435; GX 9435 9443 9433; GX 9435 9453 22238; GX 22238 22259 9427; GX 2110 22238 22246; GX 22246 22207 9434;
GA 9441 9433 9432; GX 9432 9445 9431; GX 9432 9456 22205; GX 22246 22205 22197; GX 22228 22197 22204; GX 22201 22204 9430;
GX 9432 22256 22200; GX 22255 22200 9428; GX 22197 22198 9426; GA 9427 9464 9425; GA 9434 9463 9424; GA 9437 2111 9423;
GA 9428 9458 9422; GX 9422 9425 22244; GI 22244 22215; GA 9431 9470 9421; GA 9441 9460 9420; GX 9420 9423 22251;
GX 22251 22215 22226; GA 9429 9461 9419; GX 9419 9425 22249; GX 9419 9422 22220; GA 9426 9459 9418; GX 9418 9421 22243;
GX 9418 22249 22222; GA 9430 9462 9417; GA 9427 9468 9416; GA 9434 9465 9415; GA 9437 9469 9414; GA 9428 9473 9413;
GX 9413 9417 22245; GX 22243 22245 22257; GX 9420 22257 22223; GX 22249 22245 22217; GA 9431 9466 9412; GA 9441 9467 9411;
GX 9411 9423 22250; GX 9414 22250 22213; GA 9429 9472 9410; GA 9426 9474 9409; GX 9409 9410 22232; GX 9415 22232 22237;
GX 9416 22237 22242; GX 9424 22242 22247; GX 9412 22232 22252; GX 9421 22247 22258; GX 22244 22258 29906; GX 22251 22258 29905;
GX 9413 22252 22225; GX 22225 22226 22224; GX 22252 22223 9477; GX 22247 22222 9476; GX 22243 22242 22221; GX 22220 22221 29909;
GX 22215 22237 22214; GX 22213 22214 22212; GI 22212 22261; GX 22261 22257 29904; GA 9430 9471 9408; GX 9408 9410 22216;
GX 22216 22217 22260; GX 22260 22250 9475; GI 9477 29903; GI 9476 29908; GI 9475 29907; GX 15134 15103 14939;
GX 21408 14939 30059; GX 30059 431 2103; GX 14938 15132 14936; GX 14936 14937 30060; GX 30060 430 2102; GX 15135 15130 14935;
GX 30172 14935 30061; GX 30061 429 2101; GX 2102 2101 22316; GX 14923 15128 14933; GX 14933 14934 30062; GX 30062 428 2100;
GX 2102 2100 22295; GX 2101 22295 22297; GX 2100 2101 22279; GX 14906 15126 14930; GX 14930 14931 30063; GX 30063 427 2099;
GX 2101 2099 9404; GX 15129 15124 14929; GX 30175 14929 30064; GX 30064 426 2098; GX 2098 22297 9388; GX 15127 15123 14928;
GX 30176 14928 30065; GX 30065 425 2097; GX 2097 22297 9391; GX 2099 2097 22298; GX 2103 2097 22304; GX 22304 22297 9390;
GX 2098 22304 9400; GX 2102 9400 9396; GX 22298 2098 22263; GX 2103 22263 9399].
(** aes128_with_ks.txt:8254-8503 *)
Definition aes_enc_file_g33 : list gate := [
GA 9399 2103 9385; GA 9396 9400 9383; GX 30191 14927 30066; GX 30066 424 2096; GX 2096 2102 9403; GX 2096 2101 9401;
GX 2098 2096 22296; GX 22296 9404 9389; GX 2099 2096 9402; GX 9402 22316 9398; GX 22296 22304 9397; GX 22316 9397 9395;
GX 22295 9402 9394; GX 2103 9394 9393; GX 22298 22296 22264; GX 22295 22264 9392; GA 9398 9394 9387; GX 9387 22298 22303;
GA 9395 9393 9386; GA 9403 9388 9384; GX 9384 22296 22302; GA 9397 9390 9382; GA 9402 9391 9381; GX 9381 22297 22299;
GX 22303 22299 22309; GA 9404 9389 9380; GX 9380 9386 22308; GX 2096 22308 22323; GX 22323 22309 9378; GX 9380 9381 22278;
GX 22278 22279 22330; GX 22330 22302 22327; GX 9383 22327 9377; GA 9401 9392 9379; GX 9379 9382 22301; GX 9379 9385 22307;
GX 9380 22301 22321; GX 2098 22307 22322; GX 22302 22301 22287; GX 22299 22287 9376; GX 22308 22307 22286; GX 22296 22286 9375;
GX 9383 22321 22277; GX 2102 22277 9370; GA 9378 9377 9374; GX 9374 9376 9373; GX 9374 22322 22276; GX 22309 22276 9369;
GA 9375 9373 9372; GX 9372 22309 22324; GX 22322 22324 9371; GX 9384 9372 22271; GX 22303 22271 22267; GX 2096 22267 22270;
GX 2098 22267 22266; GA 9369 9370 9368; GX 9368 9376 9367; GX 9374 9368 9366; GX 9368 22321 22275; GX 9368 9385 22274;
GX 22274 9382 22269; GX 22269 22270 9359; GA 9376 9366 9365; GX 9365 9373 9363; GX 9365 9383 22306; GX 22306 22327 9357;
GX 2102 22306 22314; GX 22314 22275 9364; GA 9371 9363 9362; GX 9362 9375 9361; GX 9362 9386 22273; GX 22314 22273 22265;
GX 22296 22265 22272; GX 22269 22272 9360; GX 9362 22324 22268; GX 22323 22268 9358; GX 22265 22266 9356; GA 9357 9394 9355;
GA 9364 9393 9354; GA 9367 2103 9353; GA 9358 9388 9352; GX 9352 9355 22312; GI 22312 22283; GA 9361 9400 9351;
GA 9371 9390 9350; GX 9350 9353 22319; GX 22319 22283 22294; GA 9359 9391 9349; GX 9349 9355 22317; GX 9349 9352 22288;
GA 9356 9389 9348; GX 9348 9351 22311; GX 9348 22317 22290; GA 9360 9392 9347; GA 9357 9398 9346; GA 9364 9395 9345;
GA 9367 9399 9344; GA 9358 9403 9343; GX 9343 9347 22313; GX 22311 22313 22325; GX 9350 22325 22291; GX 22317 22313 22285;
GA 9361 9396 9342; GA 9371 9397 9341; GX 9341 9353 22318; GX 9344 22318 22281; GA 9359 9402 9340; GA 9356 9404 9339;
GX 9339 9340 22300; GX 9345 22300 22305; GX 9346 22305 22310; GX 9354 22310 22315; GX 9342 22300 22320; GX 9351 22315 22326;
GX 22312 22326 29885; GX 22319 22326 29884; GX 9343 22320 22293; GX 22293 22294 22292; GX 22320 22291 9407; GX 22315 22290 9406;
GX 22311 22310 22289; GX 22288 22289 29888; GX 22283 22305 22282; GX 22281 22282 22280; GI 22280 22329; GX 22329 22325 29883;
GA 9360 9401 9338; GX 9338 9340 22284; GX 22284 22285 22328; GX 22328 22318 9405; GI 9407 29882; GI 9406 29887;
GI 9405 29886; GI 29886 15327; GX 29888 29887 15391; GI 29884 15195; GX 15136 15095 14924; GX 21340 14924 30067;
GX 30067 439 2095; GX 30185 14860 14922; GX 14921 14922 30069; GX 30069 437 2093; GX 30188 30181 14920; GX 14919 14920 30072;
GX 30072 434 2090; GX 30189 14917 14916; GX 14915 14916 30073; GX 30073 433 2089; GX 2095 2089 22372; GX 2090 22372 9330;
GX 15096 30190 14913; GX 14913 14914 30074; GX 30074 432 2088; GX 2088 2093 9331; GX 2090 2088 22364; GX 22364 22372 9327;
GX 15136 15104 14912; GX 21000 14912 30075; GX 30075 447 2087; GX 14911 15134 14909; GI 15104 14903; GX 14903 30185 14910;
GX 14909 14910 30076; GX 30076 446 2086; GX 15133 15132 14907; GX 30186 14907 30077; GX 30077 445 2085; GX 2086 2085 22452;
GX 14906 15130 14904; GX 14903 30187 14905; GX 14904 14905 30078; GX 30078 444 2084; GX 2086 2084 22431; GX 2085 22431 22433;
GX 2084 2085 22415; GX 15129 15128 14901; GX 14903 30188 14902; GX 14901 14902 14900; GI 14900 30079; GX 30079 443 2083;
GX 2085 2083 9264; GX 15127 15126 14899; GX 30189 14899 30080; GX 30080 442 2082; GX 2082 22433 9248; GX 15125 15124 14898;
GX 30190 14898 30081; GX 30081 441 2081; GX 2081 22433 9251; GX 2083 2081 22434; GX 2087 2081 22440; GX 22440 22433 9250;
GX 2082 22440 9260; GX 2086 9260 9256; GX 22434 2082 22399; GX 2087 22399 9259; GA 9259 2087 9245; GA 9256 9260 9243;
GX 15123 15095 14897; GX 30177 14897 30082; GX 30082 440 2080; GX 2080 2086 9263; GX 2080 2085 9261; GX 2082 2080 22432;
GX 22432 9264 9249; GX 2083 2080 9262; GX 9262 22452 9258; GX 22432 22440 9257; GX 22452 9257 9255; GX 22431 9262 9254;
GX 2087 9254 9253; GX 22434 22432 22400; GX 22431 22400 9252; GA 9258 9254 9247; GX 9247 22434 22439; GA 9255 9253 9246;
GA 9263 9248 9244; GX 9244 22432 22438; GA 9257 9250 9242; GA 9262 9251 9241; GX 9241 22433 22435; GX 22439 22435 22445;
GA 9264 9249 9240; GX 9240 9246 22444; GX 2080 22444 22459; GX 22459 22445 9238; GX 9240 9241 22414; GX 22414 22415 22466;
GX 22466 22438 22463; GX 9243 22463 9237; GA 9261 9252 9239; GX 9239 9242 22437; GX 9239 9245 22443; GX 9240 22437 22457;
GX 2082 22443 22458; GX 22438 22437 22423; GX 22435 22423 9236; GX 22444 22443 22422; GX 22432 22422 9235; GX 9243 22457 22413;
GX 2086 22413 9230; GA 9238 9237 9234; GX 9234 9236 9233; GX 9234 22458 22412; GX 22445 22412 9229; GA 9235 9233 9232;
GX 9232 22445 22460; GX 22458 22460 9231; GX 9244 9232 22407; GX 22439 22407 22403].
(** aes128_with_ks.txt:8504-8753 *)
Definition aes_enc_file_g34 : list gate := [
GX 2080 22403 22406; GX 2082 22403 22402; GA 9229 9230 9228; GX 9228 9236 9227; GX 9234 9228 9226; GX 9228 22457 22411;
GX 9228 9245 22410; GX 22410 9242 22405; GX 22405 22406 9219; GA 9236 9226 9225; GX 9225 9233 9223; GX 9225 9243 22442;
GX 22442 22463 9217; GX 2086 22442 22450; GX 22450 22411 9224; GA 9231 9223 9222; GX 9222 9235 9221; GX 9222 9246 22409;
GX 22450 22409 22401; GX 22432 22401 22408; GX 22405 22408 9220; GX 9222 22460 22404; GX 22459 22404 9218; GX 22401 22402 9216;
GA 9217 9254 9215; GA 9224 9253 9214; GA 9227 2087 9213; GA 9218 9248 9212; GX 9212 9215 22448; GI 22448 22419;
GA 9221 9260 9211; GA 9231 9250 9210; GX 9210 9213 22455; GX 22455 22419 22430; GA 9219 9251 9209; GX 9209 9215 22453;
GX 9209 9212 22424; GA 9216 9249 9208; GX 9208 9211 22447; GX 9208 22453 22426; GA 9220 9252 9207; GA 9217 9258 9206;
GA 9224 9255 9205; GA 9227 9259 9204; GA 9218 9263 9203; GX 9203 9207 22449; GX 22447 22449 22461; GX 9210 22461 22427;
GX 22453 22449 22421; GA 9221 9256 9202; GA 9231 9257 9201; GX 9201 9213 22454; GX 9204 22454 22417; GA 9219 9262 9200;
GA 9216 9264 9199; GX 9199 9200 22436; GX 9205 22436 22441; GX 9206 22441 22446; GX 9214 22446 22451; GX 9202 22436 22456;
GX 9211 22451 22462; GX 22448 22462 29955; GX 22455 22462 29954; GX 9203 22456 22429; GX 22429 22430 22428; GX 22456 22427 9267;
GX 22451 22426 9266; GX 22447 22446 22425; GX 22424 22425 29958; GX 22419 22441 22418; GX 22417 22418 22416; GI 22416 22465;
GX 22465 22461 29953; GA 9220 9261 9198; GX 9198 9200 22420; GX 22420 22421 22464; GX 22464 22454 9265; GI 9267 29952;
GI 9266 29957; GI 9265 29956; GI 15095 14870; GX 14870 30195 14873; GX 30187 14866 14874; GX 14873 14874 15171;
GX 15171 15129 30071; GX 30071 435 2091; GX 2091 2089 22366; GX 2091 2088 9332; GX 2093 2091 9334; GX 22364 9334 9319;
GX 22366 22364 22332; GX 22366 2090 22331; GX 2095 22331 9329; GA 9329 2095 9315; GA 9334 9319 9310; GX 14870 30194 14867;
GX 30186 14869 14868; GX 14867 14868 15173; GX 15173 15131 30070; GX 30070 436 2092; GX 2092 2093 22347; GX 15095 30192 14862;
GX 21000 20660 14863; GX 14862 14863 15175; GX 15175 15135 30068; GX 30068 438 2094; GX 2088 2094 9333; GX 2094 9330 9326;
GX 2094 2092 22363; GX 2093 22363 22365; GX 2089 22365 9321; GX 2090 22365 9318; GX 22372 22365 9320; GX 2094 2093 22384;
GX 9332 22384 9328; GX 22384 9327 9325; GX 22363 9332 9324; GX 2095 9324 9323; GX 22363 22332 9322; GA 9328 9324 9317;
GX 9317 22366 22371; GA 9325 9323 9316; GX 9310 9316 22376; GX 2088 22376 22391; GA 9333 9318 9314; GX 9314 22364 22370;
GA 9326 9330 9313; GA 9327 9320 9312; GA 9332 9321 9311; GX 9311 22365 22367; GX 22371 22367 22377; GX 22391 22377 9308;
GX 9310 9311 22346; GX 22346 22347 22398; GX 22398 22370 22395; GX 9313 22395 9307; GA 9331 9322 9309; GX 9309 9312 22369;
GX 9309 9315 22375; GX 9310 22369 22389; GX 2090 22375 22390; GX 22370 22369 22355; GX 22367 22355 9306; GX 22376 22375 22354;
GX 22364 22354 9305; GX 9313 22389 22345; GX 2094 22345 9300; GA 9308 9307 9304; GX 9304 9306 9303; GX 9304 22390 22344;
GX 22377 22344 9299; GA 9305 9303 9302; GX 9302 22377 22392; GX 22390 22392 9301; GX 9314 9302 22339; GX 22371 22339 22335;
GX 2088 22335 22338; GX 2090 22335 22334; GA 9299 9300 9298; GX 9298 9306 9297; GX 9304 9298 9296; GX 9298 22389 22343;
GX 9298 9315 22342; GX 22342 9312 22337; GX 22337 22338 9289; GA 9306 9296 9295; GX 9295 9303 9293; GX 9295 9313 22374;
GX 22374 22395 9287; GX 2094 22374 22382; GX 22382 22343 9294; GA 9301 9293 9292; GX 9292 9305 9291; GX 9292 9316 22341;
GX 22382 22341 22333; GX 22364 22333 22340; GX 22337 22340 9290; GX 9292 22392 22336; GX 22391 22336 9288; GX 22333 22334 9286;
GA 9287 9324 9285; GA 9294 9323 9284; GA 9297 2095 9283; GA 9288 9318 9282; GX 9282 9285 22380; GI 22380 22351;
GA 9291 9330 9281; GA 9301 9320 9280; GX 9280 9283 22387; GX 22387 22351 22362; GA 9289 9321 9279; GX 9279 9285 22385;
GX 9279 9282 22356; GA 9286 9319 9278; GX 9278 9281 22379; GX 9278 22385 22358; GA 9290 9322 9277; GA 9287 9328 9276;
GA 9294 9325 9275; GA 9297 9329 9274; GA 9288 9333 9273; GX 9273 9277 22381; GX 22379 22381 22393; GX 9280 22393 22359;
GX 22385 22381 22353; GA 9291 9326 9272; GA 9301 9327 9271; GX 9271 9283 22386; GX 9274 22386 22349; GA 9289 9332 9270;
GA 9286 9334 9269; GX 9269 9270 22368; GX 9275 22368 22373; GX 9276 22373 22378; GX 9284 22378 22383; GX 9272 22368 22388;
GX 9281 22383 22394; GX 22380 22394 29976; GX 22387 22394 29975; GX 9273 22388 22361; GX 22361 22362 22360; GX 22388 22359 9337;
GX 22383 22358 9336; GX 22379 22378 22357; GX 22356 22357 29979; GX 22351 22373 22350; GX 22349 22350 22348; GI 22348 22397;
GX 22397 22393 29974; GA 9290 9331 9268; GX 9268 9270 22352; GX 22352 22353 22396; GX 22396 22386 9335; GI 9337 29973;
GI 9336 29978; GI 9335 29977; GI 29973 15418; GI 29976 15411; GX 14481 19980 14478; GX 14480 20048 14479;
GX 14478 14479 14819; GX 14819 14783 30260; GX 30260 326 2270; GX 2264 2270 10873; GX 2270 10870 10866; GX 2270 2268 20867;
GX 2269 20867 20869; GX 2265 20869 10861; GX 2266 20869 10858; GX 20876 20869 10860].
(** aes128_with_ks.txt:8754-9003 *)
Definition aes_enc_file_g35 : list gate := [
GX 2270 2269 20888; GX 10872 20888 10868; GX 20888 10867 10865; GX 20867 10872 10864; GX 2271 10864 10863; GX 20867 20836 10862;
GA 10868 10864 10857; GX 10857 20870 20875; GA 10865 10863 10856; GX 10850 10856 20880; GX 2264 20880 20895; GA 10873 10858 10854;
GX 10854 20868 20874; GA 10866 10870 10853; GA 10867 10860 10852; GA 10872 10861 10851; GX 10851 20869 20871; GX 20875 20871 20881;
GX 20895 20881 10848; GX 10850 10851 20850; GX 20850 20851 20902; GX 20902 20874 20899; GX 10853 20899 10847; GA 10871 10862 10849;
GX 10849 10852 20873; GX 10849 10855 20879; GX 10850 20873 20893; GX 2266 20879 20894; GX 20874 20873 20859; GX 20871 20859 10846;
GX 20880 20879 20858; GX 20868 20858 10845; GX 10853 20893 20849; GX 2270 20849 10840; GA 10848 10847 10844; GX 10844 10846 10843;
GX 10844 20894 20848; GX 20881 20848 10839; GA 10845 10843 10842; GX 10842 20881 20896; GX 20894 20896 10841; GX 10854 10842 20843;
GX 20875 20843 20839; GX 2264 20839 20842; GX 2266 20839 20838; GA 10839 10840 10838; GX 10838 10846 10837; GX 10844 10838 10836;
GX 10838 20893 20847; GX 10838 10855 20846; GX 20846 10852 20841; GX 20841 20842 10829; GA 10846 10836 10835; GX 10835 10843 10833;
GX 10835 10853 20878; GX 20878 20899 10827; GX 2270 20878 20886; GX 20886 20847 10834; GA 10841 10833 10832; GX 10832 10845 10831;
GX 10832 10856 20845; GX 20886 20845 20837; GX 20868 20837 20844; GX 20841 20844 10830; GX 10832 20896 20840; GX 20895 20840 10828;
GX 20837 20838 10826; GA 10827 10864 10825; GA 10834 10863 10824; GA 10837 2271 10823; GA 10828 10858 10822; GX 10822 10825 20884;
GI 20884 20855; GA 10831 10870 10821; GA 10841 10860 10820; GX 10820 10823 20891; GX 20891 20855 20866; GA 10829 10861 10819;
GX 10819 10825 20889; GX 10819 10822 20860; GA 10826 10859 10818; GX 10818 10821 20883; GX 10818 20889 20862; GA 10830 10862 10817;
GA 10827 10868 10816; GA 10834 10865 10815; GA 10837 10869 10814; GA 10828 10873 10813; GX 10813 10817 20885; GX 20883 20885 20897;
GX 10820 20897 20863; GX 20889 20885 20857; GA 10831 10866 10812; GA 10841 10867 10811; GX 10811 10823 20890; GX 10814 20890 20853;
GA 10829 10872 10810; GA 10826 10874 10809; GX 10809 10810 20872; GX 10815 20872 20877; GX 10816 20877 20882; GX 10824 20882 20887;
GX 10812 20872 20892; GX 10821 20887 20898; GX 20884 20898 30118; GX 20891 20898 30117; GX 10813 20892 20865; GX 20865 20866 20864;
GX 20892 20863 10877; GX 20887 20862 10876; GX 20883 20882 20861; GX 20860 20861 30121; GX 20855 20877 20854; GX 20853 20854 20852;
GI 20852 20901; GX 20901 20897 30116; GA 10830 10871 10808; GX 10808 10810 20856; GX 20856 20857 20900; GX 20900 20890 10875;
GI 10877 30115; GI 10876 30120; GI 10875 30119; GX 30121 30142 15100; GX 30121 30128 15107; GX 30120 30127 15153;
GX 30119 30126 15155; GX 30118 30125 15157; GX 15183 15157 30007; GX 30007 499 2155; GX 30117 30124 15159; GX 15185 15159 30006;
GX 30006 500 2156; GX 30116 30123 15161; GX 30115 30122 15163; GX 15187 15163 30004; GX 30004 502 2158; GX 2158 2156 21819;
GX 20864 21204 15164; GX 15162 15100 15092; GX 21204 15092 29987; GX 29987 487 2175; GX 15163 15158 15075; GX 30116 15075 29997;
GX 29997 493 2165; GX 15161 15156 15058; GI 15107 14893; GX 14893 30117 15059; GX 15058 15059 15057; GI 15057 29998;
GX 29998 492 2164; GX 2164 2165 21735; GI 15159 15021; GX 15021 15154 15040; GX 14893 30118 15041; GX 15040 15041 29999;
GX 29999 491 2163; GX 2165 2163 9964; GX 15157 15152 15039; GX 30119 15039 30000; GX 30000 490 2162; GX 15155 15151 15038;
GX 30120 15038 30001; GX 30001 489 2161; GX 2163 2161 21754; GX 21754 2162 21719; GI 15153 15031; GI 15100 14833;
GX 15031 14833 15037; GX 30135 15037 30002; GX 30002 488 2160; GX 2160 2165 9961; GX 2162 2160 21752; GX 21752 9964 9949;
GX 2163 2160 9962; GX 21754 21752 21720; GA 9964 9949 9940; GX 15164 15099 15036; GX 20796 15036 30003; GX 30003 503 2159;
GX 15161 30122 15034; GX 15034 15035 30005; GX 30005 501 2157; GX 2157 21819 21821; GX 2158 2157 21840; GX 2157 2155 9894;
GX 2156 2157 21803; GX 15155 30140 15032; GX 15032 15033 30008; GX 30008 498 2154; GX 2154 21821 9878; GX 15031 30141 15029;
GX 15029 15030 30009; GX 30009 497 2153; GX 2153 21821 9881; GX 2155 2153 21822; GX 2159 2153 21828; GX 21828 21821 9880;
GX 2154 21828 9890; GX 2158 9890 9886; GX 21822 2154 21787; GX 2159 21787 9889; GA 9889 2159 9875; GA 9886 9890 9873;
GX 15100 30134 15027; GX 15027 15028 30010; GX 30010 496 2152; GX 2152 2158 9893; GX 2152 2157 9891; GX 2154 2152 21820;
GX 21820 9894 9879; GX 2155 2152 9892; GX 9892 21840 9888; GX 21820 21828 9887; GX 21840 9887 9885; GX 21819 9892 9884;
GX 2159 9884 9883; GX 21822 21820 21788; GX 21819 21788 9882; GA 9888 9884 9877; GX 9877 21822 21827; GA 9885 9883 9876;
GA 9893 9878 9874; GX 9874 21820 21826; GA 9887 9880 9872; GA 9892 9881 9871; GX 9871 21821 21823; GX 21827 21823 21833;
GA 9894 9879 9870; GX 9870 9876 21832; GX 2152 21832 21847; GX 21847 21833 9868; GX 9870 9871 21802; GX 21802 21803 21854;
GX 21854 21826 21851; GX 9873 21851 9867; GA 9891 9882 9869; GX 9869 9872 21825; GX 9869 9875 21831; GX 9870 21825 21845;
GX 2154 21831 21846; GX 21826 21825 21811; GX 21823 21811 9866; GX 21832 21831 21810; GX 21820 21810 9865; GX 9873 21845 21801;
GX 2158 21801 9860; GA 9868 9867 9864; GX 9864 9866 9863; GX 9864 21846 21800].
(** aes128_with_ks.txt:9004-9253 *)
Definition aes_enc_file_g36 : list gate := [
GX 21833 21800 9859; GA 9865 9863 9862; GX 9862 21833 21848; GX 21846 21848 9861; GX 9874 9862 21795; GX 21827 21795 21791;
GX 2152 21791 21794; GX 2154 21791 21790; GA 9859 9860 9858; GX 9858 9866 9857; GX 9864 9858 9856; GX 9858 21845 21799;
GX 9858 9875 21798; GX 21798 9872 21793; GX 21793 21794 9849; GA 9866 9856 9855; GX 9855 9863 9853; GX 9855 9873 21830;
GX 21830 21851 9847; GX 2158 21830 21838; GX 21838 21799 9854; GA 9861 9853 9852; GX 9852 9865 9851; GX 9852 9876 21797;
GX 21838 21797 21789; GX 21820 21789 21796; GX 21793 21796 9850; GX 9852 21848 21792; GX 21847 21792 9848; GX 21789 21790 9846;
GA 9847 9884 9845; GA 9854 9883 9844; GA 9857 2159 9843; GA 9848 9878 9842; GX 9842 9845 21836; GI 21836 21807;
GA 9851 9890 9841; GA 9861 9880 9840; GX 9840 9843 21843; GX 21843 21807 21818; GA 9849 9881 9839; GX 9839 9845 21841;
GX 9839 9842 21812; GA 9846 9879 9838; GX 9838 9841 21835; GX 9838 21841 21814; GA 9850 9882 9837; GA 9847 9888 9836;
GA 9854 9885 9835; GA 9857 9889 9834; GA 9848 9893 9833; GX 9833 9837 21837; GX 21835 21837 21849; GX 9840 21849 21815;
GX 21841 21837 21809; GA 9851 9886 9832; GA 9861 9887 9831; GX 9831 9843 21842; GX 9834 21842 21805; GA 9849 9892 9830;
GA 9846 9894 9829; GX 9829 9830 21824; GX 9835 21824 21829; GX 9836 21829 21834; GX 9844 21834 21839; GX 9832 21824 21844;
GX 9841 21839 21850; GX 21836 21850 29920; GX 21843 21850 29919; GX 9833 21844 21817; GX 21817 21818 21816; GX 21844 21815 9897;
GX 21839 21814 9896; GX 21835 21834 21813; GX 21812 21813 29923; GX 21807 21829 21806; GX 21805 21806 21804; GI 21804 21853;
GX 21853 21849 29918; GA 9850 9891 9828; GX 9828 9830 21808; GX 21808 21809 21852; GX 21852 21842 9895; GI 9897 29917;
GI 9896 29922; GI 9895 29921; GX 15164 15108 15026; GX 21544 15026 30011; GX 30011 511 2151; GI 15163 15025;
GX 15025 15162 15023; GX 15023 15024 30012; GX 30012 510 2150; GX 15161 15160 15022; GX 30130 15022 30013; GX 30013 509 2149;
GX 2150 2149 21908; GX 15021 15158 15019; GX 15019 15020 30014; GX 30014 508 2148; GX 2150 2148 21887; GX 2149 21887 21889;
GX 2148 2149 21871; GI 15157 15018; GX 15018 15156 15015; GX 15015 15016 30015; GX 30015 507 2147; GX 2149 2147 9824;
GX 15155 15154 15014; GX 30133 15014 30016; GX 30016 506 2146; GX 2146 21889 9808; GX 30115 30123 15013; GX 15012 15013 29989;
GX 29989 485 2173; GX 15153 15152 15011; GX 30134 15011 30017; GX 30017 505 2145; GX 2145 21889 9811; GX 2147 2145 21890;
GX 2151 2145 21896; GX 21896 21889 9810; GX 2146 21896 9820; GX 2150 9820 9816; GX 21890 2146 21855; GX 2151 21855 9819;
GA 9819 2151 9805; GA 9816 9820 9803; GX 30121 15010 30018; GX 30018 504 2144; GX 2144 2150 9823; GX 2144 2149 9821;
GX 2146 2144 21888; GX 21888 9824 9809; GX 2147 2144 9822; GX 9822 21908 9818; GX 21888 21896 9817; GX 21908 9817 9815;
GX 21887 9822 9814; GX 2151 9814 9813; GX 21890 21888 21856; GX 21887 21856 9812; GA 9818 9814 9807; GX 9807 21890 21895;
GA 9815 9813 9806; GA 9823 9808 9804; GX 9804 21888 21894; GA 9817 9810 9802; GA 9822 9811 9801; GX 9801 21889 21891;
GX 21895 21891 21901; GA 9824 9809 9800; GX 9800 9806 21900; GX 2144 21900 21915; GX 21915 21901 9798; GX 9800 9801 21870;
GX 21870 21871 21922; GX 21922 21894 21919; GX 9803 21919 9797; GA 9821 9812 9799; GX 9799 9802 21893; GX 9799 9805 21899;
GX 9800 21893 21913; GX 2146 21899 21914; GX 21894 21893 21879; GX 21891 21879 9796; GX 21900 21899 21878; GX 21888 21878 9795;
GX 9803 21913 21869; GX 2150 21869 9790; GA 9798 9797 9794; GX 9794 9796 9793; GX 9794 21914 21868; GX 21901 21868 9789;
GA 9795 9793 9792; GX 9792 21901 21916; GX 21914 21916 9791; GX 9804 9792 21863; GX 21895 21863 21859; GX 2144 21859 21862;
GX 2146 21859 21858; GA 9789 9790 9788; GX 9788 9796 9787; GX 9794 9788 9786; GX 9788 21913 21867; GX 9788 9805 21866;
GX 21866 9802 21861; GX 21861 21862 9779; GA 9796 9786 9785; GX 9785 9793 9783; GX 9785 9803 21898; GX 21898 21919 9777;
GX 2150 21898 21906; GX 21906 21867 9784; GA 9791 9783 9782; GX 9782 9795 9781; GX 9782 9806 21865; GX 21906 21865 21857;
GX 21888 21857 21864; GX 21861 21864 9780; GX 9782 21916 21860; GX 21915 21860 9778; GX 21857 21858 9776; GA 9777 9814 9775;
GA 9784 9813 9774; GA 9787 2151 9773; GA 9778 9808 9772; GX 9772 9775 21904; GI 21904 21875; GA 9781 9820 9771;
GA 9791 9810 9770; GX 9770 9773 21911; GX 21911 21875 21886; GA 9779 9811 9769; GX 9769 9775 21909; GX 9769 9772 21880;
GA 9776 9809 9768; GX 9768 9771 21903; GX 9768 21909 21882; GA 9780 9812 9767; GA 9777 9818 9766; GA 9784 9815 9765;
GA 9787 9819 9764; GA 9778 9823 9763; GX 9763 9767 21905; GX 21903 21905 21917; GX 9770 21917 21883; GX 21909 21905 21877;
GA 9781 9816 9762; GA 9791 9817 9761; GX 9761 9773 21910; GX 9764 21910 21873; GA 9779 9822 9760; GA 9776 9824 9759;
GX 9759 9760 21892; GX 9765 21892 21897; GX 9766 21897 21902; GX 9774 21902 21907; GX 9762 21892 21912; GX 9771 21907 21918;
GX 21904 21918 29899; GX 21911 21918 29898; GX 9763 21912 21885; GX 21885 21886 21884; GX 21912 21883 9827; GX 21907 21882 9826;
GX 21903 21902 21881; GX 21880 21881 29902; GX 21875 21897 21874; GX 21873 21874 21872].
(** aes128_with_ks.txt:9254-9503 *)
Definition aes_enc_file_g37 : list gate := [
GI 21872 21921; GX 21921 21917 29897; GA 9780 9821 9758; GX 9758 9760 21876; GX 21876 21877 21920; GX 21920 21910 9825;
GI 9827 29896; GI 9826 29901; GI 9825 29900; GX 29899 15327 15326; GX 29900 29887 15309; GX 29902 29901 15289;
GX 29898 29885 15200; GX 29897 15195 15194; GX 14965 30118 14962; GX 14962 14963 29992; GX 29992 482 2170; GX 14947 30119 14945;
GX 14945 14946 14944; GI 14944 29993; GX 29993 481 2169; GX 2175 2169 21692; GX 2170 21692 10030; GX 15099 30120 14925;
GX 14925 14926 29994; GX 29994 480 2168; GX 2168 2173 10031; GX 2170 2168 21684; GX 21684 21692 10027; GX 15162 15107 14908;
GX 20864 14908 29995; GX 29995 495 2167; GX 2167 2161 21760; GX 2162 21760 9960; GX 21752 21760 9957; GX 2167 21719 9959;
GA 9959 2167 9945; GX 15164 15160 14891; GX 14893 30115 14892; GX 14891 14892 14890; GI 14890 29996; GX 29996 494 2166;
GX 2160 2166 9963; GX 2166 9960 9956; GX 2166 2164 21751; GX 2165 21751 21753; GX 2161 21753 9951; GX 2162 21753 9948;
GX 21760 21753 9950; GX 2166 2165 21772; GX 9962 21772 9958; GX 21772 9957 9955; GX 21751 9962 9954; GX 2167 9954 9953;
GX 21751 21720 9952; GA 9958 9954 9947; GX 9947 21754 21759; GA 9955 9953 9946; GX 9940 9946 21764; GX 2160 21764 21779;
GA 9963 9948 9944; GX 9944 21752 21758; GA 9956 9960 9943; GA 9957 9950 9942; GA 9962 9951 9941; GX 9941 21753 21755;
GX 21759 21755 21765; GX 21779 21765 9938; GX 9940 9941 21734; GX 21734 21735 21786; GX 21786 21758 21783; GX 9943 21783 9937;
GA 9961 9952 9939; GX 9939 9942 21757; GX 9939 9945 21763; GX 9940 21757 21777; GX 2162 21763 21778; GX 21758 21757 21743;
GX 21755 21743 9936; GX 21764 21763 21742; GX 21752 21742 9935; GX 9943 21777 21733; GX 2166 21733 9930; GA 9938 9937 9934;
GX 9934 9936 9933; GX 9934 21778 21732; GX 21765 21732 9929; GA 9935 9933 9932; GX 9932 21765 21780; GX 21778 21780 9931;
GX 9944 9932 21727; GX 21759 21727 21723; GX 2160 21723 21726; GX 2162 21723 21722; GA 9929 9930 9928; GX 9928 9936 9927;
GX 9934 9928 9926; GX 9928 21777 21731; GX 9928 9945 21730; GX 21730 9942 21725; GX 21725 21726 9919; GA 9936 9926 9925;
GX 9925 9933 9923; GX 9925 9943 21762; GX 21762 21783 9917; GX 2166 21762 21770; GX 21770 21731 9924; GA 9931 9923 9922;
GX 9922 9935 9921; GX 9922 9946 21729; GX 21770 21729 21721; GX 21752 21721 21728; GX 21725 21728 9920; GX 9922 21780 21724;
GX 21779 21724 9918; GX 21721 21722 9916; GA 9917 9954 9915; GA 9924 9953 9914; GA 9927 2167 9913; GA 9918 9948 9912;
GX 9912 9915 21768; GI 21768 21739; GA 9921 9960 9911; GA 9931 9950 9910; GX 9910 9913 21775; GX 21775 21739 21750;
GA 9919 9951 9909; GX 9909 9915 21773; GX 9909 9912 21744; GA 9916 9949 9908; GX 9908 9911 21767; GX 9908 21773 21746;
GA 9920 9952 9907; GA 9917 9958 9906; GA 9924 9955 9905; GA 9927 9959 9904; GA 9918 9963 9903; GX 9903 9907 21769;
GX 21767 21769 21781; GX 9910 21781 21747; GX 21773 21769 21741; GA 9921 9956 9902; GA 9931 9957 9901; GX 9901 9913 21774;
GX 9904 21774 21737; GA 9919 9962 9900; GA 9916 9964 9899; GX 9899 9900 21756; GX 9905 21756 21761; GX 9906 21761 21766;
GX 9914 21766 21771; GX 9902 21756 21776; GX 9911 21771 21782; GX 21768 21782 29941; GX 21775 21782 29940; GX 9903 21776 21749;
GX 21749 21750 21748; GX 21776 21747 9967; GX 21771 21746 9966; GX 21767 21766 21745; GX 21744 21745 29944; GX 21739 21761 21738;
GX 21737 21738 21736; GI 21736 21785; GX 21785 21781 29939; GA 9920 9961 9898; GX 9898 9900 21740; GX 21740 21741 21784;
GX 21784 21774 9965; GI 9967 29938; GI 9966 29943; GI 9965 29942; GI 29939 15232; GI 29942 15280;
GI 29938 15223; GX 29944 29943 15277; GI 29940 15229; GX 15100 30117 14836; GX 14836 14837 15184; GX 15184 15154 29991;
GX 29991 483 2171; GX 2171 2169 21686; GX 2171 2168 10032; GX 2173 2171 10034; GX 21684 10034 10019; GX 21686 21684 21652;
GX 21686 2170 21651; GX 2175 21651 10029; GA 10029 2175 10015; GA 10034 10019 10010; GX 14833 30116 14830; GX 14830 14831 15186;
GX 15186 15156 29990; GX 29990 484 2172; GX 2172 2173 21667; GX 15100 30122 14826; GX 20796 20864 14827; GX 14826 14827 15188;
GX 15188 15160 29988; GX 29988 486 2174; GX 2168 2174 10033; GX 2174 10030 10026; GX 2174 2172 21683; GX 2173 21683 21685;
GX 2169 21685 10021; GX 2170 21685 10018; GX 21692 21685 10020; GX 2174 2173 21704; GX 10032 21704 10028; GX 21704 10027 10025;
GX 21683 10032 10024; GX 2175 10024 10023; GX 21683 21652 10022; GA 10028 10024 10017; GX 10017 21686 21691; GA 10025 10023 10016;
GX 10010 10016 21696; GX 2168 21696 21711; GA 10033 10018 10014; GX 10014 21684 21690; GA 10026 10030 10013; GA 10027 10020 10012;
GA 10032 10021 10011; GX 10011 21685 21687; GX 21691 21687 21697; GX 21711 21697 10008; GX 10010 10011 21666; GX 21666 21667 21718;
GX 21718 21690 21715; GX 10013 21715 10007; GA 10031 10022 10009; GX 10009 10012 21689; GX 10009 10015 21695; GX 10010 21689 21709;
GX 2170 21695 21710; GX 21690 21689 21675; GX 21687 21675 10006; GX 21696 21695 21674; GX 21684 21674 10005; GX 10013 21709 21665;
GX 2174 21665 10000; GA 10008 10007 10004; GX 10004 10006 10003; GX 10004 21710 21664; GX 21697 21664 9999; GA 10005 10003 10002;
GX 10002 21697 21712; GX 21710 21712 10001; GX 10014 10002 21659; GX 21691 21659 21655].
(** aes128_with_ks.txt:9504-9753 *)
Definition aes_enc_file_g38 : list gate := [
GX 2168 21655 21658; GX 2170 21655 21654; GA 9999 10000 9998; GX 9998 10006 9997; GX 10004 9998 9996; GX 9998 21709 21663;
GX 9998 10015 21662; GX 21662 10012 21657; GX 21657 21658 9989; GA 10006 9996 9995; GX 9995 10003 9993; GX 9995 10013 21694;
GX 21694 21715 9987; GX 2174 21694 21702; GX 21702 21663 9994; GA 10001 9993 9992; GX 9992 10005 9991; GX 9992 10016 21661;
GX 21702 21661 21653; GX 21684 21653 21660; GX 21657 21660 9990; GX 9992 21712 21656; GX 21711 21656 9988; GX 21653 21654 9986;
GA 9987 10024 9985; GA 9994 10023 9984; GA 9997 2175 9983; GA 9988 10018 9982; GX 9982 9985 21700; GI 21700 21671;
GA 9991 10030 9981; GA 10001 10020 9980; GX 9980 9983 21707; GX 21707 21671 21682; GA 9989 10021 9979; GX 9979 9985 21705;
GX 9979 9982 21676; GA 9986 10019 9978; GX 9978 9981 21699; GX 9978 21705 21678; GA 9990 10022 9977; GA 9987 10028 9976;
GA 9994 10025 9975; GA 9997 10029 9974; GA 9988 10033 9973; GX 9973 9977 21701; GX 21699 21701 21713; GX 9980 21713 21679;
GX 21705 21701 21673; GA 9991 10026 9972; GA 10001 10027 9971; GX 9971 9983 21706; GX 9974 21706 21669; GA 9989 10032 9970;
GA 9986 10034 9969; GX 9969 9970 21688; GX 9975 21688 21693; GX 9976 21693 21698; GX 9984 21698 21703; GX 9972 21688 21708;
GX 9981 21703 21714; GX 21700 21714 29962; GX 21707 21714 29961; GX 9973 21708 21681; GX 21681 21682 21680; GX 21708 21679 10037;
GX 21703 21678 10036; GX 21699 21698 21677; GX 21676 21677 29965; GX 21671 21693 21670; GX 21669 21670 21668; GI 21668 21717;
GX 21717 21713 29960; GA 9990 10031 9968; GX 9968 9970 21672; GX 21672 21673 21716; GX 21716 21706 10035; GI 10037 29959;
GI 10036 29964; GI 10035 29963; GX 14736 30379 14477; GI 14477 14475; GI 30364 14469; GX 30371 14469 14476;
GX 14475 14476 14820; GX 14820 14794 30247; GX 30247 371 2283; GX 2283 2281 20734; GX 2283 2280 11012; GX 2285 2283 11014;
GX 20732 11014 10999; GX 20734 20732 20700; GX 20734 2282 20699; GX 2287 20699 11009; GA 11009 2287 10995; GA 11014 10999 10990;
GX 14737 30357 14473; GX 30378 30365 14474; GX 14473 14474 14821; GX 14821 14791 30231; GX 30231 355 2299; GX 2299 2297 20598;
GX 2299 2296 11152; GX 2301 2299 11154; GX 20596 11154 11139; GX 20598 20596 20564; GX 20598 2298 20563; GX 2303 20563 11149;
GA 11149 2303 11135; GA 11154 11139 11130; GX 14736 30378 14471; GX 30370 30363 14472; GX 14471 14472 14822; GX 14822 14796 30246;
GX 30246 372 2284; GX 2284 2285 20715; GX 14470 30356 14467; GX 30377 14469 14468; GX 14467 14468 14823; GX 14823 14793 30230;
GX 30230 356 2300; GX 2300 2301 20579; GX 14736 20116 14465; GX 30376 20456 14466; GX 14465 14466 14824; GX 14824 14800 30244;
GX 30244 374 2286; GX 2280 2286 11013; GX 2286 11010 11006; GX 2286 2284 20731; GX 2285 20731 20733; GX 2281 20733 11001;
GX 2282 20733 10998; GX 20740 20733 11000; GX 2286 2285 20752; GX 11012 20752 11008; GX 20752 11007 11005; GX 20731 11012 11004;
GX 2287 11004 11003; GX 20731 20700 11002; GA 11008 11004 10997; GX 10997 20734 20739; GA 11005 11003 10996; GX 10990 10996 20744;
GX 2280 20744 20759; GA 11013 10998 10994; GX 10994 20732 20738; GA 11006 11010 10993; GA 11007 11000 10992; GA 11012 11001 10991;
GX 10991 20733 20735; GX 20739 20735 20745; GX 20759 20745 10988; GX 10990 10991 20714; GX 20714 20715 20766; GX 20766 20738 20763;
GX 10993 20763 10987; GA 11011 11002 10989; GX 10989 10992 20737; GX 10989 10995 20743; GX 10990 20737 20757; GX 2282 20743 20758;
GX 20738 20737 20723; GX 20735 20723 10986; GX 20744 20743 20722; GX 20732 20722 10985; GX 10993 20757 20713; GX 2286 20713 10980;
GA 10988 10987 10984; GX 10984 10986 10983; GX 10984 20758 20712; GX 20745 20712 10979; GA 10985 10983 10982; GX 10982 20745 20760;
GX 20758 20760 10981; GX 10994 10982 20707; GX 20739 20707 20703; GX 2280 20703 20706; GX 2282 20703 20702; GA 10979 10980 10978;
GX 10978 10986 10977; GX 10984 10978 10976; GX 10978 20757 20711; GX 10978 10995 20710; GX 20710 10992 20705; GX 20705 20706 10969;
GA 10986 10976 10975; GX 10975 10983 10973; GX 10975 10993 20742; GX 20742 20763 10967; GX 2286 20742 20750; GX 20750 20711 10974;
GA 10981 10973 10972; GX 10972 10985 10971; GX 10972 10996 20709; GX 20750 20709 20701; GX 20732 20701 20708; GX 20705 20708 10970;
GX 10972 20760 20704; GX 20759 20704 10968; GX 20701 20702 10966; GA 10967 11004 10965; GA 10974 11003 10964; GA 10977 2287 10963;
GA 10968 10998 10962; GX 10962 10965 20748; GI 20748 20719; GA 10971 11010 10961; GA 10981 11000 10960; GX 10960 10963 20755;
GX 20755 20719 20730; GA 10969 11001 10959; GX 10959 10965 20753; GX 10959 10962 20724; GA 10966 10999 10958; GX 10958 10961 20747;
GX 10958 20753 20726; GA 10970 11002 10957; GA 10967 11008 10956; GA 10974 11005 10955; GA 10977 11009 10954; GA 10968 11013 10953;
GX 10953 10957 20749; GX 20747 20749 20761; GX 10960 20761 20727; GX 20753 20749 20721; GA 10971 11006 10952; GA 10981 11007 10951;
GX 10951 10963 20754; GX 10954 20754 20717; GA 10969 11012 10950; GA 10966 11014 10949; GX 10949 10950 20736; GX 10955 20736 20741;
GX 10956 20741 20746; GX 10964 20746 20751; GX 10952 20736 20756; GX 10961 20751 20762; GX 20748 20762 30160; GX 20755 20762 30159;
GX 10953 20756 20729; GX 20729 20730 20728; GX 20756 20727 11017; GX 20751 20726 11016; GX 20747 20746 20725; GX 20724 20725 30163;
GX 20719 20741 20718; GX 20717 20718 20716; GI 20716 20765; GX 20765 20761 30158].
(** aes128_with_ks.txt:9754-10003 *)
Definition aes_enc_file_g39 : list gate := [
GA 10970 11011 10948; GX 10948 10950 20720; GX 20720 20721 20764; GX 20764 20754 11015; GI 11017 30157; GI 11016 30162;
GI 11015 30161; GX 30156 30163 15097; GX 30163 30170 15106; GX 30162 30169 15137; GX 30161 30168 15138; GX 30160 30167 15140;
GX 15178 15140 30023; GX 30023 451 2139; GX 30159 30166 15142; GX 15180 15142 30022; GX 30022 452 2140; GX 30158 30165 15144;
GX 30157 30164 15146; GX 15182 15146 30020; GX 30020 454 2142; GX 2142 2140 21955; GX 20728 21068 15148; GX 15148 15098 15009;
GX 21476 15009 30019; GX 30019 455 2143; GX 15144 30164 15007; GX 15007 15008 15006; GI 15006 30021; GX 30021 453 2141;
GX 2141 21955 21957; GX 2142 2141 21976; GX 2141 2139 9754; GX 2140 2141 21939; GI 15138 15005; GX 15005 30167 15003;
GX 15003 15004 30024; GX 30024 450 2138; GX 2138 21957 9738; GX 15137 30168 15001; GX 15001 15002 30025; GX 30025 449 2137;
GX 2137 21957 9741; GX 2139 2137 21958; GX 2143 2137 21964; GX 21964 21957 9740; GX 2138 21964 9750; GX 2142 9750 9746;
GX 21958 2138 21923; GX 2143 21923 9749; GA 9749 2143 9735; GA 9746 9750 9733; GX 15097 30170 14999; GX 14999 15000 30026;
GX 30026 448 2136; GX 2136 2142 9753; GX 2136 2141 9751; GX 2138 2136 21956; GX 21956 9754 9739; GX 2139 2136 9752;
GX 9752 21976 9748; GX 21956 21964 9747; GX 21976 9747 9745; GX 21955 9752 9744; GX 2143 9744 9743; GX 21958 21956 21924;
GX 21955 21924 9742; GA 9748 9744 9737; GX 9737 21958 21963; GA 9745 9743 9736; GA 9753 9738 9734; GX 9734 21956 21962;
GA 9747 9740 9732; GA 9752 9741 9731; GX 9731 21957 21959; GX 21963 21959 21969; GA 9754 9739 9730; GX 9730 9736 21968;
GX 2136 21968 21983; GX 21983 21969 9728; GX 9730 9731 21938; GX 21938 21939 21990; GX 21990 21962 21987; GX 9733 21987 9727;
GA 9751 9742 9729; GX 9729 9732 21961; GX 9729 9735 21967; GX 9730 21961 21981; GX 2138 21967 21982; GX 21962 21961 21947;
GX 21959 21947 9726; GX 21968 21967 21946; GX 21956 21946 9725; GX 9733 21981 21937; GX 2142 21937 9720; GA 9728 9727 9724;
GX 9724 9726 9723; GX 9724 21982 21936; GX 21969 21936 9719; GA 9725 9723 9722; GX 9722 21969 21984; GX 21982 21984 9721;
GX 9734 9722 21931; GX 21963 21931 21927; GX 2136 21927 21930; GX 2138 21927 21926; GA 9719 9720 9718; GX 9718 9726 9717;
GX 9724 9718 9716; GX 9718 21981 21935; GX 9718 9735 21934; GX 21934 9732 21929; GX 21929 21930 9709; GA 9726 9716 9715;
GX 9715 9723 9713; GX 9715 9733 21966; GX 21966 21987 9707; GX 2142 21966 21974; GX 21974 21935 9714; GA 9721 9713 9712;
GX 9712 9725 9711; GX 9712 9736 21933; GX 21974 21933 21925; GX 21956 21925 21932; GX 21929 21932 9710; GX 9712 21984 21928;
GX 21983 21928 9708; GX 21925 21926 9706; GA 9707 9744 9705; GA 9714 9743 9704; GA 9717 2143 9703; GA 9708 9738 9702;
GX 9702 9705 21972; GI 21972 21943; GA 9711 9750 9701; GA 9721 9740 9700; GX 9700 9703 21979; GX 21979 21943 21954;
GA 9709 9741 9699; GX 9699 9705 21977; GX 9699 9702 21948; GA 9706 9739 9698; GX 9698 9701 21971; GX 9698 21977 21950;
GA 9710 9742 9697; GA 9707 9748 9696; GA 9714 9745 9695; GA 9717 9749 9694; GA 9708 9753 9693; GX 9693 9697 21973;
GX 21971 21973 21985; GX 9700 21985 21951; GX 21977 21973 21945; GA 9711 9746 9692; GA 9721 9747 9691; GX 9691 9703 21978;
GX 9694 21978 21941; GA 9709 9752 9690; GA 9706 9754 9689; GX 9689 9690 21960; GX 9695 21960 21965; GX 9696 21965 21970;
GX 9704 21970 21975; GX 9692 21960 21980; GX 9701 21975 21986; GX 21972 21986 29878; GX 21979 21986 29877; GX 9693 21980 21953;
GX 21953 21954 21952; GX 21980 21951 9757; GX 21975 21950 9756; GX 21971 21970 21949; GX 21948 21949 29881; GX 21943 21965 21942;
GX 21941 21942 21940; GI 21940 21989; GX 21989 21985 29876; GA 9710 9751 9688; GX 9688 9690 21944; GX 21944 21945 21988;
GX 21988 21978 9755; GI 9757 29875; GI 9756 29880; GI 9755 29879; GX 29881 29902 15463; GX 29881 29888 15470;
GX 29880 29887 15516; GX 29879 29886 15518; GX 29878 29885 15520; GX 29877 29884 15522; GX 29876 29883 15524; GX 29875 29882 15526;
GX 21952 22292 15527; GI 15470 15256; GX 15256 29877 15422; GI 15522 15384; GX 15256 29878 15404; GI 15516 15394;
GI 15463 15196; GX 15394 15196 15400; GX 15524 29882 15397; GX 15518 29900 15395; GX 15394 29901 15392; GI 15526 15388;
GI 15520 15381; GX 29875 29883 15376; GX 15256 29875 15255; GX 15463 29877 15199; GX 15199 15200 15547; GX 15196 29876 15193;
GX 15193 15194 15549; GX 15463 29882 15189; GX 21884 21952 15190; GX 15189 15190 15551; GX 15148 15105 14998; GX 21136 14998 30027;
GX 30027 463 2135; GX 14997 15146 14995; GX 14995 14996 30028; GX 30028 462 2134; GX 15149 15144 14994; GX 30144 14994 30029;
GX 30029 461 2133; GX 2134 2133 22044; GX 14984 15142 14992; GX 14992 14993 30030; GX 30030 460 2132; GX 2134 2132 22023;
GX 2133 22023 22025; GX 2132 2133 22007; GX 14968 15140 14989; GX 14989 14990 30031; GX 30031 459 2131; GX 2133 2131 9684;
GX 15143 15138 14988; GX 30147 14988 30032; GX 30032 458 2130; GX 2130 22025 9668; GX 15141 15137 14987; GX 30148 14987 30033;
GX 30033 457 2129; GX 2129 22025 9671; GX 2131 2129 22026; GX 2135 2129 22032; GX 22032 22025 9670; GX 2130 22032 9680;
GX 2134 9680 9676; GX 22026 2130 21991; GX 2135 21991 9679; GA 9679 2135 9665].
(** aes128_with_ks.txt:10004-10253 *)
Definition aes_enc_file_g40 : list gate := [
GA 9676 9680 9663; GX 30163 14986 30034; GX 30034 456 2128; GX 2128 2134 9683; GX 2128 2133 9681; GX 2130 2128 22024;
GX 22024 9684 9669; GX 2131 2128 9682; GX 9682 22044 9678; GX 22024 22032 9677; GX 22044 9677 9675; GX 22023 9682 9674;
GX 2135 9674 9673; GX 22026 22024 21992; GX 22023 21992 9672; GA 9678 9674 9667; GX 9667 22026 22031; GA 9675 9673 9666;
GA 9683 9668 9664; GX 9664 22024 22030; GA 9677 9670 9662; GA 9682 9671 9661; GX 9661 22025 22027; GX 22031 22027 22037;
GA 9684 9669 9660; GX 9660 9666 22036; GX 2128 22036 22051; GX 22051 22037 9658; GX 9660 9661 22006; GX 22006 22007 22058;
GX 22058 22030 22055; GX 9663 22055 9657; GA 9681 9672 9659; GX 9659 9662 22029; GX 9659 9665 22035; GX 9660 22029 22049;
GX 2130 22035 22050; GX 22030 22029 22015; GX 22027 22015 9656; GX 22036 22035 22014; GX 22024 22014 9655; GX 9663 22049 22005;
GX 2134 22005 9650; GA 9658 9657 9654; GX 9654 9656 9653; GX 9654 22050 22004; GX 22037 22004 9649; GA 9655 9653 9652;
GX 9652 22037 22052; GX 22050 22052 9651; GX 9664 9652 21999; GX 22031 21999 21995; GX 2128 21995 21998; GX 2130 21995 21994;
GA 9649 9650 9648; GX 9648 9656 9647; GX 9654 9648 9646; GX 9648 22049 22003; GX 9648 9665 22002; GX 22002 9662 21997;
GX 21997 21998 9639; GA 9656 9646 9645; GX 9645 9653 9643; GX 9645 9663 22034; GX 22034 22055 9637; GX 2134 22034 22042;
GX 22042 22003 9644; GA 9651 9643 9642; GX 9642 9655 9641; GX 9642 9666 22001; GX 22042 22001 21993; GX 22024 21993 22000;
GX 21997 22000 9640; GX 9642 22052 21996; GX 22051 21996 9638; GX 21993 21994 9636; GA 9637 9674 9635; GA 9644 9673 9634;
GA 9647 2135 9633; GA 9638 9668 9632; GX 9632 9635 22040; GI 22040 22011; GA 9641 9680 9631; GA 9651 9670 9630;
GX 9630 9633 22047; GX 22047 22011 22022; GA 9639 9671 9629; GX 9629 9635 22045; GX 9629 9632 22016; GA 9636 9669 9628;
GX 9628 9631 22039; GX 9628 22045 22018; GA 9640 9672 9627; GA 9637 9678 9626; GA 9644 9675 9625; GA 9647 9679 9624;
GA 9638 9683 9623; GX 9623 9627 22041; GX 22039 22041 22053; GX 9630 22053 22019; GX 22045 22041 22013; GA 9641 9676 9622;
GA 9651 9677 9621; GX 9621 9633 22046; GX 9624 22046 22009; GA 9639 9682 9620; GA 9636 9684 9619; GX 9619 9620 22028;
GX 9625 22028 22033; GX 9626 22033 22038; GX 9634 22038 22043; GX 9622 22028 22048; GX 9631 22043 22054; GX 22040 22054 29969;
GX 22047 22054 29968; GX 9623 22048 22021; GX 22021 22022 22020; GX 22048 22019 9687; GX 22043 22018 9686; GX 22039 22038 22017;
GX 22016 22017 29972; GX 22011 22033 22010; GX 22009 22010 22008; GI 22008 22057; GX 22057 22053 29967; GA 9640 9681 9618;
GX 9618 9620 22012; GX 22012 22013 22056; GX 22056 22046 9685; GI 9687 29966; GI 9686 29971; GI 9685 29970;
GX 29972 29979 15456; GX 29965 29972 15464; GX 29964 29971 15474; GX 29963 29970 15476; GX 29962 29969 15478; GX 29961 29968 15480;
GX 29960 29967 15482; GX 29959 29966 15484; GX 21680 22020 15485; GI 29970 15427; GX 15427 29962 15453; GX 29971 29963 15451;
GX 15464 29959 15446; GX 15464 29961 15443; GX 15464 29962 15441; GI 15474 15428; GX 15485 15456 15435; GX 15418 29966 15433;
GX 15411 29969 15431; GX 29977 15427 15426; GX 29972 29971 15424; GI 29968 15244; GX 29975 15244 15251; GX 29974 29967 15247;
GX 22360 22020 15241; GX 15150 15097 14985; GX 21068 14985 30035; GX 30035 471 2127; GX 30157 14843 14983; GX 14982 14983 30037;
GX 30037 469 2125; GX 30160 30153 14981; GX 14980 14981 30040; GX 30040 466 2122; GX 30161 14978 14977; GX 14976 14977 30041;
GX 30041 465 2121; GX 2127 2121 22100; GX 2122 22100 9610; GX 15098 30162 14974; GX 14974 14975 30042; GX 30042 464 2120;
GX 2120 2125 9611; GX 2122 2120 22092; GX 22092 22100 9607; GX 15150 15106 14973; GX 20728 14973 30043; GX 30043 479 2119;
GX 14972 15148 14970; GI 15106 14961; GX 14961 30157 14971; GX 14970 14971 30044; GX 30044 478 2118; GX 15147 15146 14969;
GX 30158 14969 30045; GX 30045 477 2117; GX 2118 2117 22180; GX 14968 15144 14966; GX 14961 30159 14967; GX 14966 14967 30046;
GX 30046 476 2116; GX 2118 2116 22159; GX 2117 22159 22161; GX 2116 2117 22143; GX 15143 15142 14959; GX 14961 30160 14960;
GX 14959 14960 14958; GI 14958 30047; GX 30047 475 2115; GX 2117 2115 9544; GX 15141 15140 14957; GX 30161 14957 30048;
GX 30048 474 2114; GX 2114 22161 9528; GX 15139 15138 14956; GX 30162 14956 30049; GX 30049 473 2113; GX 2113 22161 9531;
GX 2115 2113 22162; GX 2119 2113 22168; GX 22168 22161 9530; GX 2114 22168 9540; GX 2118 9540 9536; GX 22162 2114 22127;
GX 2119 22127 9539; GA 9539 2119 9525; GA 9536 9540 9523; GX 15137 15097 14955; GX 30149 14955 30050; GX 30050 472 2112;
GX 2112 2118 9543; GX 2112 2117 9541; GX 2114 2112 22160; GX 22160 9544 9529; GX 2115 2112 9542; GX 9542 22180 9538;
GX 22160 22168 9537; GX 22180 9537 9535; GX 22159 9542 9534; GX 2119 9534 9533; GX 22162 22160 22128; GX 22159 22128 9532;
GA 9538 9534 9527; GX 9527 22162 22167; GA 9535 9533 9526; GA 9543 9528 9524; GX 9524 22160 22166; GA 9537 9530 9522;
GA 9542 9531 9521; GX 9521 22161 22163; GX 22167 22163 22173; GA 9544 9529 9520; GX 9520 9526 22172; GX 2112 22172 22187;
GX 22187 22173 9518; GX 9520 9521 22142; GX 22142 22143 22194; GX 22194 22166 22191].
(** aes128_with_ks.txt:10254-10503 *)
Definition aes_enc_file_g41 : list gate := [
GX 9523 22191 9517; GA 9541 9532 9519; GX 9519 9522 22165; GX 9519 9525 22171; GX 9520 22165 22185; GX 2114 22171 22186;
GX 22166 22165 22151; GX 22163 22151 9516; GX 22172 22171 22150; GX 22160 22150 9515; GX 9523 22185 22141; GX 2118 22141 9510;
GA 9518 9517 9514; GX 9514 9516 9513; GX 9514 22186 22140; GX 22173 22140 9509; GA 9515 9513 9512; GX 9512 22173 22188;
GX 22186 22188 9511; GX 9524 9512 22135; GX 22167 22135 22131; GX 2112 22131 22134; GX 2114 22131 22130; GA 9509 9510 9508;
GX 9508 9516 9507; GX 9514 9508 9506; GX 9508 22185 22139; GX 9508 9525 22138; GX 22138 9522 22133; GX 22133 22134 9499;
GA 9516 9506 9505; GX 9505 9513 9503; GX 9505 9523 22170; GX 22170 22191 9497; GX 2118 22170 22178; GX 22178 22139 9504;
GA 9511 9503 9502; GX 9502 9515 9501; GX 9502 9526 22137; GX 22178 22137 22129; GX 22160 22129 22136; GX 22133 22136 9500;
GX 9502 22188 22132; GX 22187 22132 9498; GX 22129 22130 9496; GA 9497 9534 9495; GA 9504 9533 9494; GA 9507 2119 9493;
GA 9498 9528 9492; GX 9492 9495 22176; GI 22176 22147; GA 9501 9540 9491; GA 9511 9530 9490; GX 9490 9493 22183;
GX 22183 22147 22158; GA 9499 9531 9489; GX 9489 9495 22181; GX 9489 9492 22152; GA 9496 9529 9488; GX 9488 9491 22175;
GX 9488 22181 22154; GA 9500 9532 9487; GA 9497 9538 9486; GA 9504 9535 9485; GA 9507 9539 9484; GA 9498 9543 9483;
GX 9483 9487 22177; GX 22175 22177 22189; GX 9490 22189 22155; GX 22181 22177 22149; GA 9501 9536 9482; GA 9511 9537 9481;
GX 9481 9493 22182; GX 9484 22182 22145; GA 9499 9542 9480; GA 9496 9544 9479; GX 9479 9480 22164; GX 9485 22164 22169;
GX 9486 22169 22174; GX 9494 22174 22179; GX 9482 22164 22184; GX 9491 22179 22190; GX 22176 22190 29927; GX 22183 22190 29926;
GX 9483 22184 22157; GX 22157 22158 22156; GX 22184 22155 9547; GX 22179 22154 9546; GX 22175 22174 22153; GX 22152 22153 29930;
GX 22147 22169 22146; GX 22145 22146 22144; GI 22144 22193; GX 22193 22189 29925; GA 9500 9541 9478; GX 9478 9480 22148;
GX 22148 22149 22192; GX 22192 22182 9545; GI 9547 29924; GI 9546 29929; GI 9545 29928; GX 29909 29930 15461;
GX 29923 29930 15469; GX 29922 29929 15500; GX 29921 29928 15501; GX 29920 29927 15503; GX 29919 29926 15505; GX 29918 29925 15507;
GX 29917 29924 15509; GX 21816 22156 15511; GX 15511 15461 15372; GX 15507 29924 15370; GI 15501 15368; GX 15368 29927 15366;
GX 15500 29928 15364; GX 29929 29908 15363; GI 15461 15207; GX 15461 29922 15337; GI 15469 15324; GX 15324 29917 15334;
GX 15324 29919 15330; GX 15324 29920 15323; GX 15461 29926 15217; GX 15207 29925 15210; GX 15207 22156 15204; GI 15097 14853;
GX 14853 30167 14856; GX 30159 14849 14857; GX 14856 14857 15177; GX 15177 15143 30039; GX 30039 467 2123; GX 2123 2121 22094;
GX 2123 2120 9612; GX 2125 2123 9614; GX 22092 9614 9599; GX 22094 22092 22060; GX 22094 2122 22059; GX 2127 22059 9609;
GA 9609 2127 9595; GA 9614 9599 9590; GX 14853 30166 14850; GX 30158 14852 14851; GX 14850 14851 15179; GX 15179 15145 30038;
GX 30038 468 2124; GX 2124 2125 22075; GX 15097 30164 14845; GX 20728 21476 14846; GX 14845 14846 15181; GX 15181 15149 30036;
GX 30036 470 2126; GX 2120 2126 9613; GX 2126 9610 9606; GX 2126 2124 22091; GX 2125 22091 22093; GX 2121 22093 9601;
GX 2122 22093 9598; GX 22100 22093 9600; GX 2126 2125 22112; GX 9612 22112 9608; GX 22112 9607 9605; GX 22091 9612 9604;
GX 2127 9604 9603; GX 22091 22060 9602; GA 9608 9604 9597; GX 9597 22094 22099; GA 9605 9603 9596; GX 9590 9596 22104;
GX 2120 22104 22119; GA 9613 9598 9594; GX 9594 22092 22098; GA 9606 9610 9593; GA 9607 9600 9592; GA 9612 9601 9591;
GX 9591 22093 22095; GX 22099 22095 22105; GX 22119 22105 9588; GX 9590 9591 22074; GX 22074 22075 22126; GX 22126 22098 22123;
GX 9593 22123 9587; GA 9611 9602 9589; GX 9589 9592 22097; GX 9589 9595 22103; GX 9590 22097 22117; GX 2122 22103 22118;
GX 22098 22097 22083; GX 22095 22083 9586; GX 22104 22103 22082; GX 22092 22082 9585; GX 9593 22117 22073; GX 2126 22073 9580;
GA 9588 9587 9584; GX 9584 9586 9583; GX 9584 22118 22072; GX 22105 22072 9579; GA 9585 9583 9582; GX 9582 22105 22120;
GX 22118 22120 9581; GX 9594 9582 22067; GX 22099 22067 22063; GX 2120 22063 22066; GX 2122 22063 22062; GA 9579 9580 9578;
GX 9578 9586 9577; GX 9584 9578 9576; GX 9578 22117 22071; GX 9578 9595 22070; GX 22070 9592 22065; GX 22065 22066 9569;
GA 9586 9576 9575; GX 9575 9583 9573; GX 9575 9593 22102; GX 22102 22123 9567; GX 2126 22102 22110; GX 22110 22071 9574;
GA 9581 9573 9572; GX 9572 9585 9571; GX 9572 9596 22069; GX 22110 22069 22061; GX 22092 22061 22068; GX 22065 22068 9570;
GX 9572 22120 22064; GX 22119 22064 9568; GX 22061 22062 9566; GA 9567 9604 9565; GA 9574 9603 9564; GA 9577 2127 9563;
GA 9568 9598 9562; GX 9562 9565 22108; GI 22108 22079; GA 9571 9610 9561; GA 9581 9600 9560; GX 9560 9563 22115;
GX 22115 22079 22090; GA 9569 9601 9559; GX 9559 9565 22113; GX 9559 9562 22084; GA 9566 9599 9558; GX 9558 9561 22107;
GX 9558 22113 22086; GA 9570 9602 9557; GA 9567 9608 9556; GA 9574 9605 9555; GA 9577 9609 9554; GA 9568 9613 9553;
GX 9553 9557 22109; GX 22107 22109 22121; GX 9560 22121 22087; GX 22113 22109 22081].
(** aes128_with_ks.txt:10504-10753 *)
Definition aes_enc_file_g42 : list gate := [
GA 9571 9606 9552; GA 9581 9607 9551; GX 9551 9563 22114; GX 9554 22114 22077; GA 9569 9612 9550; GA 9566 9614 9549;
GX 9549 9550 22096; GX 9555 22096 22101; GX 9556 22101 22106; GX 9564 22106 22111; GX 9552 22096 22116; GX 9561 22111 22122;
GX 22108 22122 29948; GX 22115 22122 29947; GX 9553 22116 22089; GX 22089 22090 22088; GX 22116 22087 9617; GX 22111 22086 9616;
GX 22107 22106 22085; GX 22084 22085 29951; GX 22079 22101 22078; GX 22077 22078 22076; GI 22076 22125; GX 22125 22121 29946;
GA 9570 9611 9548; GX 9548 9550 22080; GX 22080 22081 22124; GX 22124 22114 9615; GI 9617 29945; GI 9616 29950;
GI 9615 29949; GX 29944 29951 15458; GX 29951 29958 15467; GX 29950 29957 15486; GX 29949 29956 15487; GX 29948 29955 15489;
GX 29947 29954 15491; GX 29946 29953 15493; GX 29945 29952 15495; GX 22088 22428 15497; GX 15493 29952 15315; GI 15487 15313;
GX 15313 29955 15311; GX 15486 29956 15305; GX 15458 29958 15303; GX 29945 15223 15285; GX 29948 29941 15283; GX 29949 15280 15279;
GI 15467 15266; GX 15266 29945 15273; GX 15266 29947 15268; GX 15266 29948 15265; GX 15486 15458 15260; GI 15458 15233;
GX 15233 29955 15236; GX 29947 15229 15237; GX 15236 15237 15534; GX 15233 29954 15230; GX 29946 15232 15231; GX 15230 15231 15536;
GX 15458 29952 15225; GX 22088 21748 15226; GX 15225 15226 15538; GX 14737 30362 14463; GX 19708 19776 14464; GX 14463 14464 14825;
GX 14825 14797 30228; GX 30228 358 2302; GX 2296 2302 11153; GX 2302 11150 11146; GX 2302 2300 20595; GX 2301 20595 20597;
GX 2297 20597 11141; GX 2298 20597 11138; GX 20604 20597 11140; GX 2302 2301 20616; GX 11152 20616 11148; GX 20616 11147 11145;
GX 20595 11152 11144; GX 2303 11144 11143; GX 20595 20564 11142; GA 11148 11144 11137; GX 11137 20598 20603; GA 11145 11143 11136;
GX 11130 11136 20608; GX 2296 20608 20623; GA 11153 11138 11134; GX 11134 20596 20602; GA 11146 11150 11133; GA 11147 11140 11132;
GA 11152 11141 11131; GX 11131 20597 20599; GX 20603 20599 20609; GX 20623 20609 11128; GX 11130 11131 20578; GX 20578 20579 20630;
GX 20630 20602 20627; GX 11133 20627 11127; GA 11151 11142 11129; GX 11129 11132 20601; GX 11129 11135 20607; GX 11130 20601 20621;
GX 2298 20607 20622; GX 20602 20601 20587; GX 20599 20587 11126; GX 20608 20607 20586; GX 20596 20586 11125; GX 11133 20621 20577;
GX 2302 20577 11120; GA 11128 11127 11124; GX 11124 11126 11123; GX 11124 20622 20576; GX 20609 20576 11119; GA 11125 11123 11122;
GX 11122 20609 20624; GX 20622 20624 11121; GX 11134 11122 20571; GX 20603 20571 20567; GX 2296 20567 20570; GX 2298 20567 20566;
GA 11119 11120 11118; GX 11118 11126 11117; GX 11124 11118 11116; GX 11118 20621 20575; GX 11118 11135 20574; GX 20574 11132 20569;
GX 20569 20570 11109; GA 11126 11116 11115; GX 11115 11123 11113; GX 11115 11133 20606; GX 20606 20627 11107; GX 2302 20606 20614;
GX 20614 20575 11114; GA 11121 11113 11112; GX 11112 11125 11111; GX 11112 11136 20573; GX 20614 20573 20565; GX 20596 20565 20572;
GX 20569 20572 11110; GX 11112 20624 20568; GX 20623 20568 11108; GX 20565 20566 11106; GA 11107 11144 11105; GA 11114 11143 11104;
GA 11117 2303 11103; GA 11108 11138 11102; GX 11102 11105 20612; GI 20612 20583; GA 11111 11150 11101; GA 11121 11140 11100;
GX 11100 11103 20619; GX 20619 20583 20594; GA 11109 11141 11099; GX 11099 11105 20617; GX 11099 11102 20588; GA 11106 11139 11098;
GX 11098 11101 20611; GX 11098 20617 20590; GA 11110 11142 11097; GA 11107 11148 11096; GA 11114 11145 11095; GA 11117 11149 11094;
GA 11108 11153 11093; GX 11093 11097 20613; GX 20611 20613 20625; GX 11100 20625 20591; GX 20617 20613 20585; GA 11111 11146 11092;
GA 11121 11147 11091; GX 11091 11103 20618; GX 11094 20618 20581; GA 11109 11152 11090; GA 11106 11154 11089; GX 11089 11090 20600;
GX 11095 20600 20605; GX 11096 20605 20610; GX 11104 20610 20615; GX 11092 20600 20620; GX 11101 20615 20626; GX 20612 20626 30202;
GX 20619 20626 30201; GX 11093 20620 20593; GX 20593 20594 20592; GX 20620 20591 11157; GX 20615 20590 11156; GX 20611 20610 20589;
GX 20588 20589 30205; GX 20583 20605 20582; GX 20581 20582 20580; GI 20580 20629; GX 20629 20625 30200; GA 11110 11151 11088;
GX 11088 11090 20584; GX 20584 20585 20628; GX 20628 20618 11155; GI 11157 30199; GI 11156 30204; GI 11155 30203;
GX 30205 30226 15094; GX 30205 30212 15101; GX 30204 30211 15111; GX 30203 30210 15113; GX 30202 30209 15115; GX 15165 15115 30103;
GX 30103 403 2059; GX 30201 30208 15117; GX 15167 15117 30102; GX 30102 404 2060; GX 30200 30207 15119; GX 30199 30206 15121;
GX 15169 15121 30100; GX 30100 406 2062; GX 2062 2060 22635; GX 20592 20932 15122; GX 15064 30202 15090; GX 15089 15090 30088;
GX 30088 386 2074; GX 30211 30203 15088; GX 15087 15088 30089; GX 30089 385 2073; GX 30225 30204 15086; GX 15085 15086 30090;
GX 30090 384 2072; GX 2074 2072 22500; GX 15120 15101 15084; GX 20592 15084 30091; GX 30091 399 2071; GX 15122 15118 15082;
GX 15101 30199 15083; GX 15082 15083 30092; GX 30092 398 2070; GX 15121 15116 15081; GX 30200 15081 30093; GX 30093 397 2069;
GX 2070 2069 22588; GX 15119 15114 15079; GX 15101 30201 15080; GX 15079 15080 30094; GX 30094 396 2068; GX 2070 2068 22567;
GX 2069 22567 22569; GX 2068 2069 22551; GX 15117 15112 15077; GX 15101 30202 15078; GX 15077 15078 30095; GX 30095 395 2067;
GX 2069 2067 9124; GX 15115 15110 15076; GX 30203 15076 30096; GX 30096 394 2066].
(** aes128_with_ks.txt:10754-11003 *)
Definition aes_enc_file_g43 : list gate := [
GX 2066 22569 9108; GX 15113 15109 15074; GX 30204 15074 30097; GX 30097 393 2065; GX 2065 22569 9111; GX 2067 2065 22570;
GX 2071 2065 22576; GX 22576 22569 9110; GX 2066 22576 9120; GX 2070 9120 9116; GX 22570 2066 22535; GX 2071 22535 9119;
GA 9119 2071 9105; GA 9116 9120 9103; GI 15111 15065; GI 15094 14882; GX 15065 14882 15073; GX 30219 15073 30098;
GX 30098 392 2064; GX 2064 2070 9123; GX 2064 2069 9121; GX 2066 2064 22568; GX 22568 9124 9109; GX 2067 2064 9122;
GX 9122 22588 9118; GX 22568 22576 9117; GX 22588 9117 9115; GX 22567 9122 9114; GX 2071 9114 9113; GX 22570 22568 22536;
GX 22567 22536 9112; GA 9118 9114 9107; GX 9107 22570 22575; GA 9115 9113 9106; GA 9123 9108 9104; GX 9104 22568 22574;
GA 9117 9110 9102; GA 9122 9111 9101; GX 9101 22569 22571; GX 22575 22571 22581; GA 9124 9109 9100; GX 9100 9106 22580;
GX 2064 22580 22595; GX 22595 22581 9098; GX 9100 9101 22550; GX 22550 22551 22602; GX 22602 22574 22599; GX 9103 22599 9097;
GA 9121 9112 9099; GX 9099 9102 22573; GX 9099 9105 22579; GX 9100 22573 22593; GX 2066 22579 22594; GX 22574 22573 22559;
GX 22571 22559 9096; GX 22580 22579 22558; GX 22568 22558 9095; GX 9103 22593 22549; GX 2070 22549 9090; GA 9098 9097 9094;
GX 9094 9096 9093; GX 9094 22594 22548; GX 22581 22548 9089; GA 9095 9093 9092; GX 9092 22581 22596; GX 22594 22596 9091;
GX 9104 9092 22543; GX 22575 22543 22539; GX 2064 22539 22542; GX 2066 22539 22538; GA 9089 9090 9088; GX 9088 9096 9087;
GX 9094 9088 9086; GX 9088 22593 22547; GX 9088 9105 22546; GX 22546 9102 22541; GX 22541 22542 9079; GA 9096 9086 9085;
GX 9085 9093 9083; GX 9085 9103 22578; GX 22578 22599 9077; GX 2070 22578 22586; GX 22586 22547 9084; GA 9091 9083 9082;
GX 9082 9095 9081; GX 9082 9106 22545; GX 22586 22545 22537; GX 22568 22537 22544; GX 22541 22544 9080; GX 9082 22596 22540;
GX 22595 22540 9078; GX 22537 22538 9076; GA 9077 9114 9075; GA 9084 9113 9074; GA 9087 2071 9073; GA 9078 9108 9072;
GX 9072 9075 22584; GI 22584 22555; GA 9081 9120 9071; GA 9091 9110 9070; GX 9070 9073 22591; GX 22591 22555 22566;
GA 9079 9111 9069; GX 9069 9075 22589; GX 9069 9072 22560; GA 9076 9109 9068; GX 9068 9071 22583; GX 9068 22589 22562;
GA 9080 9112 9067; GA 9077 9118 9066; GA 9084 9115 9065; GA 9087 9119 9064; GA 9078 9123 9063; GX 9063 9067 22585;
GX 22583 22585 22597; GX 9070 22597 22563; GX 22589 22585 22557; GA 9081 9116 9062; GA 9091 9117 9061; GX 9061 9073 22590;
GX 9064 22590 22553; GA 9079 9122 9060; GA 9076 9124 9059; GX 9059 9060 22572; GX 9065 22572 22577; GX 9066 22577 22582;
GX 9074 22582 22587; GX 9062 22572 22592; GX 9071 22587 22598; GX 22584 22598 29913; GX 22591 22598 29912; GX 9063 22592 22565;
GX 22565 22566 22564; GX 22592 22563 9127; GX 22587 22562 9126; GX 22583 22582 22561; GX 22560 22561 29916; GX 22555 22577 22554;
GX 22553 22554 22552; GI 22552 22601; GX 22601 22597 29911; GA 9080 9121 9058; GX 9058 9060 22556; GX 22556 22557 22600;
GX 22600 22590 9125; GI 9127 29910; GI 9126 29915; GI 9125 29914; GX 29916 29923 15460; GX 29909 29916 15468;
GX 29908 29915 15502; GX 29907 29914 15504; GX 29906 29913 15506; GX 29905 29912 15508; GX 29904 29911 15510; GX 29903 29910 15512;
GX 22224 22564 15513; GX 22564 15372 29779; GX 29779 583 2015; GI 29911 15215; GX 15215 29903 15371; GX 15370 15371 15369;
GI 15369 29781; GX 29781 581 2013; GI 29914 15341; GX 15341 29906 15367; GX 15366 15367 29784; GX 29784 578 2010;
GX 29915 29907 15365; GX 15364 15365 29785; GX 29785 577 2009; GX 2015 2009 23052; GX 2010 23052 8630; GX 15460 29930 15362;
GX 15362 15363 29786; GX 29786 576 2008; GX 2008 2013 8631; GX 2010 2008 23044; GX 23044 23052 8627; GX 15511 15468 15361;
GX 22224 15361 29787; GX 29787 591 2007; GI 15513 15360; GX 15360 15509 15358; GI 15468 15354; GX 15354 29903 15359;
GX 15358 15359 29788; GX 29788 590 2006; GX 15512 15507 15357; GX 29904 15357 29789; GX 29789 589 2005; GX 2006 2005 23132;
GI 15510 15347; GX 15347 15505 15355; GX 15354 29905 15356; GX 15355 15356 29790; GX 29790 588 2004; GX 2006 2004 23111;
GX 2005 23111 23113; GX 2004 2005 23095; GI 15508 15331; GX 15331 15503 15352; GX 15354 29906 15353; GX 15352 15353 29791;
GX 29791 587 2003; GX 2005 2003 8564; GX 15506 15501 15351; GX 29907 15351 29792; GX 29792 586 2002; GX 2002 23113 8548;
GX 15504 15500 15350; GX 29908 15350 29793; GX 29793 585 2001; GX 2001 23113 8551; GX 2003 2001 23114; GX 2007 2001 23120;
GX 23120 23113 8550; GX 2002 23120 8560; GX 2006 8560 8556; GX 23114 2002 23079; GX 2007 23079 8559; GA 8559 2007 8545;
GA 8556 8560 8543; GI 15502 15342; GX 15342 15207 15349; GX 29923 15349 29794; GX 29794 584 2000; GX 2000 2006 8563;
GX 2000 2005 8561; GX 2002 2000 23112; GX 23112 8564 8549; GX 2003 2000 8562; GX 8562 23132 8558; GX 23112 23120 8557;
GX 23132 8557 8555; GX 23111 8562 8554; GX 2007 8554 8553; GX 23114 23112 23080; GX 23111 23080 8552; GA 8558 8554 8547;
GX 8547 23114 23119; GA 8555 8553 8546; GA 8563 8548 8544; GX 8544 23112 23118; GA 8557 8550 8542; GA 8562 8551 8541;
GX 8541 23113 23115; GX 23119 23115 23125; GA 8564 8549 8540; GX 8540 8546 23124].
(** aes128_with_ks.txt:11004-11253 *)
Definition aes_enc_file_g44 : list gate := [
GX 2000 23124 23139; GX 23139 23125 8538; GX 8540 8541 23094; GX 23094 23095 23146; GX 23146 23118 23143; GX 8543 23143 8537;
GA 8561 8552 8539; GX 8539 8542 23117; GX 8539 8545 23123; GX 8540 23117 23137; GX 2002 23123 23138; GX 23118 23117 23103;
GX 23115 23103 8536; GX 23124 23123 23102; GX 23112 23102 8535; GX 8543 23137 23093; GX 2006 23093 8530; GA 8538 8537 8534;
GX 8534 8536 8533; GX 8534 23138 23092; GX 23125 23092 8529; GA 8535 8533 8532; GX 8532 23125 23140; GX 23138 23140 8531;
GX 8544 8532 23087; GX 23119 23087 23083; GX 2000 23083 23086; GX 2002 23083 23082; GA 8529 8530 8528; GX 8528 8536 8527;
GX 8534 8528 8526; GX 8528 23137 23091; GX 8528 8545 23090; GX 23090 8542 23085; GX 23085 23086 8519; GA 8536 8526 8525;
GX 8525 8533 8523; GX 8525 8543 23122; GX 23122 23143 8517; GX 2006 23122 23130; GX 23130 23091 8524; GA 8531 8523 8522;
GX 8522 8535 8521; GX 8522 8546 23089; GX 23130 23089 23081; GX 23112 23081 23088; GX 23085 23088 8520; GX 8522 23140 23084;
GX 23139 23084 8518; GX 23081 23082 8516; GA 8517 8554 8515; GA 8524 8553 8514; GA 8527 2007 8513; GA 8518 8548 8512;
GX 8512 8515 23128; GI 23128 23099; GA 8521 8560 8511; GA 8531 8550 8510; GX 8510 8513 23135; GX 23135 23099 23110;
GA 8519 8551 8509; GX 8509 8515 23133; GX 8509 8512 23104; GA 8516 8549 8508; GX 8508 8511 23127; GX 8508 23133 23106;
GA 8520 8552 8507; GA 8517 8558 8506; GA 8524 8555 8505; GA 8527 8559 8504; GA 8518 8563 8503; GX 8503 8507 23129;
GX 23127 23129 23141; GX 8510 23141 23107; GX 23133 23129 23101; GA 8521 8556 8502; GA 8531 8557 8501; GX 8501 8513 23134;
GX 8504 23134 23097; GA 8519 8562 8500; GA 8516 8564 8499; GX 8499 8500 23116; GX 8505 23116 23121; GX 8506 23121 23126;
GX 8514 23126 23131; GX 8502 23116 23136; GX 8511 23131 23142; GX 23128 23142 29729; GX 23135 23142 29728; GX 8503 23136 23109;
GX 23109 23110 23108; GX 23136 23107 8567; GX 23131 23106 8566; GX 23127 23126 23105; GX 23104 23105 29732; GX 23099 23121 23098;
GX 23097 23098 23096; GI 23096 23145; GX 23145 23141 29727; GA 8520 8561 8498; GX 8498 8500 23100; GX 23100 23101 23144;
GX 23144 23134 8565; GI 8567 29726; GI 8566 29731; GI 8565 29730; GI 29730 15790; GX 29732 29731 15787;
GI 29728 15607; GX 15513 15460 15348; GX 22156 15348 29795; GX 29795 599 1999; GX 15347 29925 15345; GI 29910 15206;
GX 29917 15206 15346; GX 15345 15346 29797; GX 29797 597 1997; GX 15504 29928 15343; GX 29920 29913 15344; GX 15343 15344 29800;
GX 29800 594 1994; GX 15342 29929 15339; GX 29921 15341 15340; GX 15339 15340 29801; GX 29801 593 1993; GX 1999 1993 23188;
GX 1994 23188 8490; GX 29916 29915 15338; GX 15337 15338 29802; GX 29802 592 1992; GX 1992 1997 8491; GX 1994 1992 23180;
GX 23180 23188 8487; GX 15513 15469 15336; GX 21816 15336 29803; GX 29803 607 1991; GI 15512 15335; GX 15335 15511 15333;
GX 15333 15334 29804; GX 29804 606 1990; GX 15510 15509 15332; GX 29918 15332 29805; GX 29805 605 1989; GX 1990 1989 23268;
GX 15331 15507 15329; GX 15329 15330 29806; GX 29806 604 1988; GX 1990 1988 23247; GX 1989 23247 23249; GX 1988 1989 23231;
GX 15506 15505 15322; GX 15322 15323 15321; GI 15321 29807; GX 29807 603 1987; GX 1989 1987 8424; GX 15504 15503 15320;
GX 29921 15320 29808; GX 29808 602 1986; GX 1986 23249 8408; GX 15502 15501 15319; GX 29922 15319 29809; GX 29809 601 1985;
GX 1985 23249 8411; GX 1987 1985 23250; GX 1991 1985 23256; GX 23256 23249 8410; GX 1986 23256 8420; GX 1990 8420 8416;
GX 23250 1986 23215; GX 1991 23215 8419; GA 8419 1991 8405; GA 8416 8420 8403; GX 15500 15460 15318; GX 29909 15318 29810;
GX 29810 600 1984; GX 1984 1990 8423; GX 1984 1989 8421; GX 1986 1984 23248; GX 23248 8424 8409; GX 1987 1984 8422;
GX 8422 23268 8418; GX 23248 23256 8417; GX 23268 8417 8415; GX 23247 8422 8414; GX 1991 8414 8413; GX 23250 23248 23216;
GX 23247 23216 8412; GA 8418 8414 8407; GX 8407 23250 23255; GA 8415 8413 8406; GA 8423 8408 8404; GX 8404 23248 23254;
GA 8417 8410 8402; GA 8422 8411 8401; GX 8401 23249 23251; GX 23255 23251 23261; GA 8424 8409 8400; GX 8400 8406 23260;
GX 1984 23260 23275; GX 23275 23261 8398; GX 8400 8401 23230; GX 23230 23231 23282; GX 23282 23254 23279; GX 8403 23279 8397;
GA 8421 8412 8399; GX 8399 8402 23253; GX 8399 8405 23259; GX 8400 23253 23273; GX 1986 23259 23274; GX 23254 23253 23239;
GX 23251 23239 8396; GX 23260 23259 23238; GX 23248 23238 8395; GX 8403 23273 23229; GX 1990 23229 8390; GA 8398 8397 8394;
GX 8394 8396 8393; GX 8394 23274 23228; GX 23261 23228 8389; GA 8395 8393 8392; GX 8392 23261 23276; GX 23274 23276 8391;
GX 8404 8392 23223; GX 23255 23223 23219; GX 1984 23219 23222; GX 1986 23219 23218; GA 8389 8390 8388; GX 8388 8396 8387;
GX 8394 8388 8386; GX 8388 23273 23227; GX 8388 8405 23226; GX 23226 8402 23221; GX 23221 23222 8379; GA 8396 8386 8385;
GX 8385 8393 8383; GX 8385 8403 23258; GX 23258 23279 8377; GX 1990 23258 23266; GX 23266 23227 8384; GA 8391 8383 8382;
GX 8382 8395 8381; GX 8382 8406 23225; GX 23266 23225 23217; GX 23248 23217 23224; GX 23221 23224 8380; GX 8382 23276 23220;
GX 23275 23220 8378; GX 23217 23218 8376; GA 8377 8414 8375; GA 8384 8413 8374].
(** aes128_with_ks.txt:11254-11503 *)
Definition aes_enc_file_g45 : list gate := [
GA 8387 1991 8373; GA 8378 8408 8372; GX 8372 8375 23264; GI 23264 23235; GA 8381 8420 8371; GA 8391 8410 8370;
GX 8370 8373 23271; GX 23271 23235 23246; GA 8379 8411 8369; GX 8369 8375 23269; GX 8369 8372 23240; GA 8376 8409 8368;
GX 8368 8371 23263; GX 8368 23269 23242; GA 8380 8412 8367; GA 8377 8418 8366; GA 8384 8415 8365; GA 8387 8419 8364;
GA 8378 8423 8363; GX 8363 8367 23265; GX 23263 23265 23277; GX 8370 23277 23243; GX 23269 23265 23237; GA 8381 8416 8362;
GA 8391 8417 8361; GX 8361 8373 23270; GX 8364 23270 23233; GA 8379 8422 8360; GA 8376 8424 8359; GX 8359 8360 23252;
GX 8365 23252 23257; GX 8366 23257 23262; GX 8374 23262 23267; GX 8362 23252 23272; GX 8371 23267 23278; GX 23264 23278 29687;
GX 23271 23278 29686; GX 8363 23272 23245; GX 23245 23246 23244; GX 23272 23243 8427; GX 23267 23242 8426; GX 23263 23262 23241;
GX 23240 23241 29690; GX 23235 23257 23234; GX 23233 23234 23232; GI 23232 23281; GX 23281 23277 29685; GA 8380 8421 8358;
GX 8358 8360 23236; GX 23236 23237 23280; GX 23280 23270 8425; GI 8427 29684; GI 8426 29689; GI 8425 29688;
GI 15460 15216; GX 15216 29927 15219; GI 29912 15212; GX 29919 15212 15220; GX 15219 15220 15540; GX 15540 15506 29799;
GX 29799 595 1995; GX 1995 1993 23182; GX 1995 1992 8492; GX 1997 1995 8494; GX 23180 8494 8479; GX 23182 23180 23148;
GX 23182 1994 23147; GX 1999 23147 8489; GA 8489 1999 8475; GA 8494 8479 8470; GX 29913 29905 15218; GX 15217 15218 15541;
GX 15541 15503 29783; GX 29783 579 2011; GX 2011 2009 23046; GX 2011 2008 8632; GX 2013 2011 8634; GX 23044 8634 8619;
GX 23046 23044 23012; GX 23046 2010 23011; GX 2015 23011 8629; GA 8629 2015 8615; GA 8634 8619 8610; GX 15216 29926 15213;
GX 29918 15215 15214; GX 15213 15214 15542; GX 15542 15508 29798; GX 29798 596 1996; GX 1996 1997 23163; GX 15212 29904 15211;
GX 15210 15211 15543; GX 15543 15505 29782; GX 29782 580 2012; GX 2012 2013 23027; GX 15460 29924 15208; GX 21816 22564 15209;
GX 15208 15209 15544; GX 15544 15512 29796; GX 29796 598 1998; GX 1992 1998 8493; GX 1998 8490 8486; GX 1998 1996 23179;
GX 1997 23179 23181; GX 1993 23181 8481; GX 1994 23181 8478; GX 23188 23181 8480; GX 1998 1997 23200; GX 8492 23200 8488;
GX 23200 8487 8485; GX 23179 8492 8484; GX 1999 8484 8483; GX 23179 23148 8482; GA 8488 8484 8477; GX 8477 23182 23187;
GA 8485 8483 8476; GX 8470 8476 23192; GX 1992 23192 23207; GA 8493 8478 8474; GX 8474 23180 23186; GA 8486 8490 8473;
GA 8487 8480 8472; GA 8492 8481 8471; GX 8471 23181 23183; GX 23187 23183 23193; GX 23207 23193 8468; GX 8470 8471 23162;
GX 23162 23163 23214; GX 23214 23186 23211; GX 8473 23211 8467; GA 8491 8482 8469; GX 8469 8472 23185; GX 8469 8475 23191;
GX 8470 23185 23205; GX 1994 23191 23206; GX 23186 23185 23171; GX 23183 23171 8466; GX 23192 23191 23170; GX 23180 23170 8465;
GX 8473 23205 23161; GX 1998 23161 8460; GA 8468 8467 8464; GX 8464 8466 8463; GX 8464 23206 23160; GX 23193 23160 8459;
GA 8465 8463 8462; GX 8462 23193 23208; GX 23206 23208 8461; GX 8474 8462 23155; GX 23187 23155 23151; GX 1992 23151 23154;
GX 1994 23151 23150; GA 8459 8460 8458; GX 8458 8466 8457; GX 8464 8458 8456; GX 8458 23205 23159; GX 8458 8475 23158;
GX 23158 8472 23153; GX 23153 23154 8449; GA 8466 8456 8455; GX 8455 8463 8453; GX 8455 8473 23190; GX 23190 23211 8447;
GX 1998 23190 23198; GX 23198 23159 8454; GA 8461 8453 8452; GX 8452 8465 8451; GX 8452 8476 23157; GX 23198 23157 23149;
GX 23180 23149 23156; GX 23153 23156 8450; GX 8452 23208 23152; GX 23207 23152 8448; GX 23149 23150 8446; GA 8447 8484 8445;
GA 8454 8483 8444; GA 8457 1999 8443; GA 8448 8478 8442; GX 8442 8445 23196; GI 23196 23167; GA 8451 8490 8441;
GA 8461 8480 8440; GX 8440 8443 23203; GX 23203 23167 23178; GA 8449 8481 8439; GX 8439 8445 23201; GX 8439 8442 23172;
GA 8446 8479 8438; GX 8438 8441 23195; GX 8438 23201 23174; GA 8450 8482 8437; GA 8447 8488 8436; GA 8454 8485 8435;
GA 8457 8489 8434; GA 8448 8493 8433; GX 8433 8437 23197; GX 23195 23197 23209; GX 8440 23209 23175; GX 23201 23197 23169;
GA 8451 8486 8432; GA 8461 8487 8431; GX 8431 8443 23202; GX 8434 23202 23165; GA 8449 8492 8430; GA 8446 8494 8429;
GX 8429 8430 23184; GX 8435 23184 23189; GX 8436 23189 23194; GX 8444 23194 23199; GX 8432 23184 23204; GX 8441 23199 23210;
GX 23196 23210 29708; GX 23203 23210 29707; GX 8433 23204 23177; GX 23177 23178 23176; GX 23204 23175 8497; GX 23199 23174 8496;
GX 23195 23194 23173; GX 23172 23173 29711; GX 23167 23189 23166; GX 23165 23166 23164; GI 23164 23213; GX 23213 23209 29706;
GA 8450 8491 8428; GX 8428 8430 23168; GX 23168 23169 23212; GX 23212 23202 8495; GI 8497 29705; GI 8496 29710;
GI 8495 29709; GX 15206 22224 15205; GX 15204 15205 15545; GX 15545 15509 29780; GX 29780 582 2014; GX 2008 2014 8633;
GX 2014 8630 8626; GX 2014 2012 23043; GX 2013 23043 23045; GX 2009 23045 8621; GX 2010 23045 8618; GX 23052 23045 8620;
GX 2014 2013 23064; GX 8632 23064 8628; GX 23064 8627 8625; GX 23043 8632 8624; GX 2015 8624 8623; GX 23043 23012 8622;
GA 8628 8624 8617; GX 8617 23046 23051; GA 8625 8623 8616; GX 8610 8616 23056].
(** aes128_with_ks.txt:11504-11753 *)
Definition aes_enc_file_g46 : list gate := [
GX 2008 23056 23071; GA 8633 8618 8614; GX 8614 23044 23050; GA 8626 8630 8613; GA 8627 8620 8612; GA 8632 8621 8611;
GX 8611 23045 23047; GX 23051 23047 23057; GX 23071 23057 8608; GX 8610 8611 23026; GX 23026 23027 23078; GX 23078 23050 23075;
GX 8613 23075 8607; GA 8631 8622 8609; GX 8609 8612 23049; GX 8609 8615 23055; GX 8610 23049 23069; GX 2010 23055 23070;
GX 23050 23049 23035; GX 23047 23035 8606; GX 23056 23055 23034; GX 23044 23034 8605; GX 8613 23069 23025; GX 2014 23025 8600;
GA 8608 8607 8604; GX 8604 8606 8603; GX 8604 23070 23024; GX 23057 23024 8599; GA 8605 8603 8602; GX 8602 23057 23072;
GX 23070 23072 8601; GX 8614 8602 23019; GX 23051 23019 23015; GX 2008 23015 23018; GX 2010 23015 23014; GA 8599 8600 8598;
GX 8598 8606 8597; GX 8604 8598 8596; GX 8598 23069 23023; GX 8598 8615 23022; GX 23022 8612 23017; GX 23017 23018 8589;
GA 8606 8596 8595; GX 8595 8603 8593; GX 8595 8613 23054; GX 23054 23075 8587; GX 2014 23054 23062; GX 23062 23023 8594;
GA 8601 8593 8592; GX 8592 8605 8591; GX 8592 8616 23021; GX 23062 23021 23013; GX 23044 23013 23020; GX 23017 23020 8590;
GX 8592 23072 23016; GX 23071 23016 8588; GX 23013 23014 8586; GA 8587 8624 8585; GA 8594 8623 8584; GA 8597 2015 8583;
GA 8588 8618 8582; GX 8582 8585 23060; GI 23060 23031; GA 8591 8630 8581; GA 8601 8620 8580; GX 8580 8583 23067;
GX 23067 23031 23042; GA 8589 8621 8579; GX 8579 8585 23065; GX 8579 8582 23036; GA 8586 8619 8578; GX 8578 8581 23059;
GX 8578 23065 23038; GA 8590 8622 8577; GA 8587 8628 8576; GA 8594 8625 8575; GA 8597 8629 8574; GA 8588 8633 8573;
GX 8573 8577 23061; GX 23059 23061 23073; GX 8580 23073 23039; GX 23065 23061 23033; GA 8591 8626 8572; GA 8601 8627 8571;
GX 8571 8583 23066; GX 8574 23066 23029; GA 8589 8632 8570; GA 8586 8634 8569; GX 8569 8570 23048; GX 8575 23048 23053;
GX 8576 23053 23058; GX 8584 23058 23063; GX 8572 23048 23068; GX 8581 23063 23074; GX 23060 23074 29638; GX 23067 23074 29637;
GX 8573 23068 23041; GX 23041 23042 23040; GX 23068 23039 8637; GX 23063 23038 8636; GX 23059 23058 23037; GX 23036 23037 29641;
GX 23031 23053 23030; GX 23029 23030 23028; GI 23028 23077; GX 23077 23073 29636; GA 8590 8631 8568; GX 8568 8570 23032;
GX 23032 23033 23076; GX 23076 23066 8635; GI 8637 29635; GI 8636 29640; GI 8635 29639; GX 15122 15093 15072;
GX 21612 15072 30099; GX 30099 407 2063; GX 15119 30221 15071; GI 15071 15069; GX 15069 15070 30101; GX 30101 405 2061;
GX 2061 22635 22637; GX 2062 2061 22656; GX 2061 2059 9054; GX 2060 2061 22619; GX 15113 30224 15067; GX 15067 15068 15066;
GI 15066 30104; GX 30104 402 2058; GX 2058 22637 9038; GX 15065 30225 15062; GX 15062 15063 30105; GX 30105 401 2057;
GX 2057 22637 9041; GX 2059 2057 22638; GX 2063 2057 22644; GX 22644 22637 9040; GX 2058 22644 9050; GX 2062 9050 9046;
GX 22638 2058 22603; GX 2063 22603 9049; GA 9049 2063 9035; GA 9046 9050 9033; GX 15094 30218 15060; GX 15060 15061 30106;
GX 30106 400 2056; GX 2056 2062 9053; GX 2056 2061 9051; GX 2058 2056 22636; GX 22636 9054 9039; GX 2059 2056 9052;
GX 9052 22656 9048; GX 22636 22644 9047; GX 22656 9047 9045; GX 22635 9052 9044; GX 2063 9044 9043; GX 22638 22636 22604;
GX 22635 22604 9042; GA 9048 9044 9037; GX 9037 22638 22643; GA 9045 9043 9036; GA 9053 9038 9034; GX 9034 22636 22642;
GA 9047 9040 9032; GA 9052 9041 9031; GX 9031 22637 22639; GX 22643 22639 22649; GA 9054 9039 9030; GX 9030 9036 22648;
GX 2056 22648 22663; GX 22663 22649 9028; GX 9030 9031 22618; GX 22618 22619 22670; GX 22670 22642 22667; GX 9033 22667 9027;
GA 9051 9042 9029; GX 9029 9032 22641; GX 9029 9035 22647; GX 9030 22641 22661; GX 2058 22647 22662; GX 22642 22641 22627;
GX 22639 22627 9026; GX 22648 22647 22626; GX 22636 22626 9025; GX 9033 22661 22617; GX 2062 22617 9020; GA 9028 9027 9024;
GX 9024 9026 9023; GX 9024 22662 22616; GX 22649 22616 9019; GA 9025 9023 9022; GX 9022 22649 22664; GX 22662 22664 9021;
GX 9034 9022 22611; GX 22643 22611 22607; GX 2056 22607 22610; GX 2058 22607 22606; GA 9019 9020 9018; GX 9018 9026 9017;
GX 9024 9018 9016; GX 9018 22661 22615; GX 9018 9035 22614; GX 22614 9032 22609; GX 22609 22610 9009; GA 9026 9016 9015;
GX 9015 9023 9013; GX 9015 9033 22646; GX 22646 22667 9007; GX 2062 22646 22654; GX 22654 22615 9014; GA 9021 9013 9012;
GX 9012 9025 9011; GX 9012 9036 22613; GX 22654 22613 22605; GX 22636 22605 22612; GX 22609 22612 9010; GX 9012 22664 22608;
GX 22663 22608 9008; GX 22605 22606 9006; GA 9007 9044 9005; GA 9014 9043 9004; GA 9017 2063 9003; GA 9008 9038 9002;
GX 9002 9005 22652; GI 22652 22623; GA 9011 9050 9001; GA 9021 9040 9000; GX 9000 9003 22659; GX 22659 22623 22634;
GA 9009 9041 8999; GX 8999 9005 22657; GX 8999 9002 22628; GA 9006 9039 8998; GX 8998 9001 22651; GX 8998 22657 22630;
GA 9010 9042 8997; GA 9007 9048 8996; GA 9014 9045 8995; GA 9017 9049 8994; GA 9008 9053 8993; GX 8993 8997 22653;
GX 22651 22653 22665; GX 9000 22665 22631; GX 22657 22653 22625; GA 9011 9046 8992; GA 9021 9047 8991; GX 8991 9003 22658;
GX 8994 22658 22621; GA 9009 9052 8990; GA 9006 9054 8989; GX 8989 8990 22640].
(** aes128_with_ks.txt:11754-12003 *)
Definition aes_enc_file_g47 : list gate := [
GX 8995 22640 22645; GX 8996 22645 22650; GX 9004 22650 22655; GX 8992 22640 22660; GX 9001 22655 22666; GX 22652 22666 29892;
GX 22659 22666 29891; GX 8993 22660 22633; GX 22633 22634 22632; GX 22660 22631 9057; GX 22655 22630 9056; GX 22651 22650 22629;
GX 22628 22629 29895; GX 22623 22645 22622; GX 22621 22622 22620; GI 22620 22669; GX 22669 22665 29890; GA 9010 9051 8988;
GX 8988 8990 22624; GX 22624 22625 22668; GX 22668 22658 9055; GI 9057 29889; GI 9056 29894; GI 9055 29893;
GX 29888 29895 15462; GX 29895 29902 15471; GX 29894 29901 15514; GX 29893 29900 15515; GX 29892 29899 15517; GX 15547 15517 29751;
GX 29751 611 2043; GX 29891 29898 15519; GX 15549 15519 29750; GX 29750 612 2044; GX 29890 29897 15521; GX 29889 29896 15523;
GX 15551 15523 29748; GX 29748 614 2046; GX 2046 2044 22771; GX 22632 21884 15525; GX 15525 15463 15455; GX 22292 15455 29747;
GX 29747 615 2047; GX 15526 15521 15438; GX 29876 15438 29757; GX 29757 621 2037; GX 15524 15519 15421; GX 15421 15422 15420;
GI 15420 29758; GX 29758 620 2036; GX 2036 2037 22823; GX 15384 15517 15403; GX 15403 15404 29759; GX 29759 619 2035;
GX 2037 2035 8844; GX 15520 15515 15402; GX 29879 15402 29760; GX 29760 618 2034; GX 15518 15514 15401; GX 29880 15401 29761;
GX 29761 617 2033; GX 2035 2033 22842; GX 22842 2034 22807; GX 29895 15400 29762; GX 29762 616 2032; GX 2032 2037 8841;
GX 2034 2032 22840; GX 22840 8844 8829; GX 2035 2032 8842; GX 22842 22840 22808; GA 8844 8829 8820; GX 15527 15462 15399;
GX 21884 15399 29763; GX 29763 631 2031; GX 29897 29889 15398; GX 15397 15398 29765; GX 29765 629 2029; GX 29892 29885 15396;
GX 15395 15396 29768; GX 29768 626 2026; GX 29893 15327 15393; GX 15392 15393 29769; GX 29769 625 2025; GX 2031 2025 22916;
GX 2026 22916 8770; GX 15463 29894 15390; GX 15390 15391 29770; GX 29770 624 2024; GX 2024 2029 8771; GX 2026 2024 22908;
GX 22908 22916 8767; GX 15527 15471 15389; GX 22632 15389 29771; GX 29771 639 2023; GX 15388 15525 15386; GI 15471 15380;
GX 15380 29889 15387; GX 15386 15387 29772; GX 29772 638 2022; GX 15524 15523 15385; GX 29890 15385 29773; GX 29773 637 2021;
GX 2022 2021 22996; GX 15384 15521 15382; GX 15380 29891 15383; GX 15382 15383 29774; GX 29774 636 2020; GX 2022 2020 22975;
GX 2021 22975 22977; GX 2020 2021 22959; GX 15381 15519 15378; GX 15380 29892 15379; GX 15378 15379 29775; GX 29775 635 2019;
GX 2021 2019 8704; GX 15518 15517 15377; GX 29893 15377 29776; GX 29776 634 2018; GX 2018 22977 8688; GX 15521 29896 15375;
GX 15375 15376 29749; GX 29749 613 2045; GX 2045 22771 22773; GX 2046 2045 22792; GX 2045 2043 8914; GX 2044 2045 22755;
GX 15516 15515 15374; GX 29894 15374 29777; GX 29777 633 2017; GX 2017 22977 8691; GX 2019 2017 22978; GX 2023 2017 22984;
GX 22984 22977 8690; GX 2018 22984 8700; GX 2022 8700 8696; GX 22978 2018 22943; GX 2023 22943 8699; GA 8699 2023 8685;
GA 8696 8700 8683; GX 15514 15462 15373; GX 29881 15373 29778; GX 29778 632 2016; GX 2016 2022 8703; GX 2016 2021 8701;
GX 2018 2016 22976; GX 22976 8704 8689; GX 2019 2016 8702; GX 8702 22996 8698; GX 22976 22984 8697; GX 22996 8697 8695;
GX 22975 8702 8694; GX 2023 8694 8693; GX 22978 22976 22944; GX 22975 22944 8692; GA 8698 8694 8687; GX 8687 22978 22983;
GA 8695 8693 8686; GA 8703 8688 8684; GX 8684 22976 22982; GA 8697 8690 8682; GA 8702 8691 8681; GX 8681 22977 22979;
GX 22983 22979 22989; GA 8704 8689 8680; GX 8680 8686 22988; GX 2016 22988 23003; GX 23003 22989 8678; GX 8680 8681 22958;
GX 22958 22959 23010; GX 23010 22982 23007; GX 8683 23007 8677; GA 8701 8692 8679; GX 8679 8682 22981; GX 8679 8685 22987;
GX 8680 22981 23001; GX 2018 22987 23002; GX 22982 22981 22967; GX 22979 22967 8676; GX 22988 22987 22966; GX 22976 22966 8675;
GX 8683 23001 22957; GX 2022 22957 8670; GA 8678 8677 8674; GX 8674 8676 8673; GX 8674 23002 22956; GX 22989 22956 8669;
GA 8675 8673 8672; GX 8672 22989 23004; GX 23002 23004 8671; GX 8684 8672 22951; GX 22983 22951 22947; GX 2016 22947 22950;
GX 2018 22947 22946; GA 8669 8670 8668; GX 8668 8676 8667; GX 8674 8668 8666; GX 8668 23001 22955; GX 8668 8685 22954;
GX 22954 8682 22949; GX 22949 22950 8659; GA 8676 8666 8665; GX 8665 8673 8663; GX 8665 8683 22986; GX 22986 23007 8657;
GX 2022 22986 22994; GX 22994 22955 8664; GA 8671 8663 8662; GX 8662 8675 8661; GX 8662 8686 22953; GX 22994 22953 22945;
GX 22976 22945 22952; GX 22949 22952 8660; GX 8662 23004 22948; GX 23003 22948 8658; GX 22945 22946 8656; GA 8657 8694 8655;
GA 8664 8693 8654; GA 8667 2023 8653; GA 8658 8688 8652; GX 8652 8655 22992; GI 22992 22963; GA 8661 8700 8651;
GA 8671 8690 8650; GX 8650 8653 22999; GX 22999 22963 22974; GA 8659 8691 8649; GX 8649 8655 22997; GX 8649 8652 22968;
GA 8656 8689 8648; GX 8648 8651 22991; GX 8648 22997 22970; GA 8660 8692 8647; GA 8657 8698 8646; GA 8664 8695 8645;
GA 8667 8699 8644; GA 8658 8703 8643; GX 8643 8647 22993; GX 22991 22993 23005; GX 8650 23005 22971; GX 22997 22993 22965;
GA 8661 8696 8642; GA 8671 8697 8641; GX 8641 8653 22998; GX 8644 22998 22961; GA 8659 8702 8640; GA 8656 8704 8639;
GX 8639 8640 22980; GX 8645 22980 22985; GX 8646 22985 22990; GX 8654 22990 22995].
(** aes128_with_ks.txt:12004-12253 *)
Definition aes_enc_file_g48 : list gate := [
GX 8642 22980 23000; GX 8651 22995 23006; GX 22992 23006 29659; GX 22999 23006 29658; GX 8643 23000 22973; GX 22973 22974 22972;
GX 23000 22971 8707; GX 22995 22970 8706; GX 22991 22990 22969; GX 22968 22969 29662; GX 22963 22985 22962; GX 22961 22962 22960;
GI 22960 23009; GX 23009 23005 29657; GA 8660 8701 8638; GX 8638 8640 22964; GX 22964 22965 23008; GX 23008 22998 8705;
GI 8707 29656; GI 8706 29661; GI 8705 29660; GX 29641 29662 15826; GI 15826 15559; GX 29662 29661 15652;
GX 15826 29637 15562; GX 15559 29636 15556; GX 22972 23040 15553; GI 15515 15328; GX 15328 29878 15325; GX 15325 15326 29752;
GX 29752 610 2042; GX 2042 22773 8898; GI 15514 15310; GX 15310 29879 15308; GX 15308 15309 15307; GI 15307 29753;
GX 29753 609 2041; GX 2041 22773 8901; GX 2043 2041 22774; GX 2047 2041 22780; GX 22780 22773 8900; GX 2042 22780 8910;
GX 2046 8910 8906; GX 22774 2042 22739; GX 2047 22739 8909; GA 8909 2047 8895; GA 8906 8910 8893; GX 15462 29880 15288;
GX 15288 15289 29754; GX 29754 608 2040; GX 2040 2046 8913; GX 2040 2045 8911; GX 2042 2040 22772; GX 22772 8914 8899;
GX 2043 2040 8912; GX 8912 22792 8908; GX 22772 22780 8907; GX 22792 8907 8905; GX 22771 8912 8904; GX 2047 8904 8903;
GX 22774 22772 22740; GX 22771 22740 8902; GA 8908 8904 8897; GX 8897 22774 22779; GA 8905 8903 8896; GA 8913 8898 8894;
GX 8894 22772 22778; GA 8907 8900 8892; GA 8912 8901 8891; GX 8891 22773 22775; GX 22779 22775 22785; GA 8914 8899 8890;
GX 8890 8896 22784; GX 2040 22784 22799; GX 22799 22785 8888; GX 8890 8891 22754; GX 22754 22755 22806; GX 22806 22778 22803;
GX 8893 22803 8887; GA 8911 8902 8889; GX 8889 8892 22777; GX 8889 8895 22783; GX 8890 22777 22797; GX 2042 22783 22798;
GX 22778 22777 22763; GX 22775 22763 8886; GX 22784 22783 22762; GX 22772 22762 8885; GX 8893 22797 22753; GX 2046 22753 8880;
GA 8888 8887 8884; GX 8884 8886 8883; GX 8884 22798 22752; GX 22785 22752 8879; GA 8885 8883 8882; GX 8882 22785 22800;
GX 22798 22800 8881; GX 8894 8882 22747; GX 22779 22747 22743; GX 2040 22743 22746; GX 2042 22743 22742; GA 8879 8880 8878;
GX 8878 8886 8877; GX 8884 8878 8876; GX 8878 22797 22751; GX 8878 8895 22750; GX 22750 8892 22745; GX 22745 22746 8869;
GA 8886 8876 8875; GX 8875 8883 8873; GX 8875 8893 22782; GX 22782 22803 8867; GX 2046 22782 22790; GX 22790 22751 8874;
GA 8881 8873 8872; GX 8872 8885 8871; GX 8872 8896 22749; GX 22790 22749 22741; GX 22772 22741 22748; GX 22745 22748 8870;
GX 8872 22800 22744; GX 22799 22744 8868; GX 22741 22742 8866; GA 8867 8904 8865; GA 8874 8903 8864; GA 8877 2047 8863;
GA 8868 8898 8862; GX 8862 8865 22788; GI 22788 22759; GA 8871 8910 8861; GA 8881 8900 8860; GX 8860 8863 22795;
GX 22795 22759 22770; GA 8869 8901 8859; GX 8859 8865 22793; GX 8859 8862 22764; GA 8866 8899 8858; GX 8858 8861 22787;
GX 8858 22793 22766; GA 8870 8902 8857; GA 8867 8908 8856; GA 8874 8905 8855; GA 8877 8909 8854; GA 8868 8913 8853;
GX 8853 8857 22789; GX 22787 22789 22801; GX 8860 22801 22767; GX 22793 22789 22761; GA 8871 8906 8852; GA 8881 8907 8851;
GX 8851 8863 22794; GX 8854 22794 22757; GA 8869 8912 8850; GA 8866 8914 8849; GX 8849 8850 22776; GX 8855 22776 22781;
GX 8856 22781 22786; GX 8864 22786 22791; GX 8852 22776 22796; GX 8861 22791 22802; GX 22788 22802 29722; GX 22795 22802 29721;
GX 8853 22796 22769; GX 22769 22770 22768; GX 22796 22767 8917; GX 22791 22766 8916; GX 22787 22786 22765; GX 22764 22765 29725;
GX 22759 22781 22758; GX 22757 22758 22756; GI 22756 22805; GX 22805 22801 29720; GA 8870 8911 8848; GX 8848 8850 22760;
GX 22760 22761 22804; GX 22804 22794 8915; GI 8917 29719; GI 8916 29724; GI 8915 29723; GX 29725 29732 15827;
GX 29724 29731 15837; GX 29723 29730 15839; GX 29722 29729 15841; GX 29721 29728 15843; GX 29720 29727 15845; GX 29719 29726 15847;
GX 22768 23108 15848; GX 15790 29722 15816; GX 29731 29723 15814; GX 15827 29719 15809; GX 15827 29721 15806; GX 15827 29722 15804;
GI 15837 15791; GX 15525 15470 15271; GX 21952 15271 29755; GX 29755 623 2039; GX 2039 2033 22848; GX 2034 22848 8840;
GX 22840 22848 8837; GX 2039 22807 8839; GA 8839 2039 8825; GX 15527 15523 15254; GX 15254 15255 15253; GI 15253 29756;
GX 29756 622 2038; GX 2032 2038 8843; GX 2038 8840 8836; GX 2038 2036 22839; GX 2037 22839 22841; GX 2033 22841 8831;
GX 2034 22841 8828; GX 22848 22841 8830; GX 2038 2037 22860; GX 8842 22860 8838; GX 22860 8837 8835; GX 22839 8842 8834;
GX 2039 8834 8833; GX 22839 22808 8832; GA 8838 8834 8827; GX 8827 22842 22847; GA 8835 8833 8826; GX 8820 8826 22852;
GX 2032 22852 22867; GA 8843 8828 8824; GX 8824 22840 22846; GA 8836 8840 8823; GA 8837 8830 8822; GA 8842 8831 8821;
GX 8821 22841 22843; GX 22847 22843 22853; GX 22867 22853 8818; GX 8820 8821 22822; GX 22822 22823 22874; GX 22874 22846 22871;
GX 8823 22871 8817; GA 8841 8832 8819; GX 8819 8822 22845; GX 8819 8825 22851; GX 8820 22845 22865; GX 2034 22851 22866;
GX 22846 22845 22831; GX 22843 22831 8816; GX 22852 22851 22830; GX 22840 22830 8815; GX 8823 22865 22821; GX 2038 22821 8810;
GA 8818 8817 8814; GX 8814 8816 8813; GX 8814 22866 22820; GX 22853 22820 8809].
(** aes128_with_ks.txt:12254-12503 *)
Definition aes_enc_file_g49 : list gate := [
GA 8815 8813 8812; GX 8812 22853 22868; GX 22866 22868 8811; GX 8824 8812 22815; GX 22847 22815 22811; GX 2032 22811 22814;
GX 2034 22811 22810; GA 8809 8810 8808; GX 8808 8816 8807; GX 8814 8808 8806; GX 8808 22865 22819; GX 8808 8825 22818;
GX 22818 8822 22813; GX 22813 22814 8799; GA 8816 8806 8805; GX 8805 8813 8803; GX 8805 8823 22850; GX 22850 22871 8797;
GX 2038 22850 22858; GX 22858 22819 8804; GA 8811 8803 8802; GX 8802 8815 8801; GX 8802 8826 22817; GX 22858 22817 22809;
GX 22840 22809 22816; GX 22813 22816 8800; GX 8802 22868 22812; GX 22867 22812 8798; GX 22809 22810 8796; GA 8797 8834 8795;
GA 8804 8833 8794; GA 8807 2039 8793; GA 8798 8828 8792; GX 8792 8795 22856; GI 22856 22827; GA 8801 8840 8791;
GA 8811 8830 8790; GX 8790 8793 22863; GX 22863 22827 22838; GA 8799 8831 8789; GX 8789 8795 22861; GX 8789 8792 22832;
GA 8796 8829 8788; GX 8788 8791 22855; GX 8788 22861 22834; GA 8800 8832 8787; GA 8797 8838 8786; GA 8804 8835 8785;
GA 8807 8839 8784; GA 8798 8843 8783; GX 8783 8787 22857; GX 22855 22857 22869; GX 8790 22869 22835; GX 22861 22857 22829;
GA 8801 8836 8782; GA 8811 8837 8781; GX 8781 8793 22862; GX 8784 22862 22825; GA 8799 8842 8780; GA 8796 8844 8779;
GX 8779 8780 22844; GX 8785 22844 22849; GX 8786 22849 22854; GX 8794 22854 22859; GX 8782 22844 22864; GX 8791 22859 22870;
GX 22856 22870 29701; GX 22863 22870 29700; GX 8783 22864 22837; GX 22837 22838 22836; GX 22864 22835 8847; GX 22859 22834 8846;
GX 22855 22854 22833; GX 22832 22833 29704; GX 22827 22849 22826; GX 22825 22826 22824; GI 22824 22873; GX 22873 22869 29699;
GA 8800 8841 8778; GX 8778 8780 22828; GX 22828 22829 22872; GX 22872 22862 8845; GI 8847 29698; GI 8846 29703;
GI 8845 29702; GX 29704 29711 15821; GI 29699 15595; GI 29702 15643; GI 29698 15586; GX 29705 15586 15648;
GX 29708 29701 15646; GX 29709 15643 15642; GX 29704 29703 15640; GI 15821 15596; GI 29700 15592; GX 29707 15592 15600;
GX 29706 15595 15594; GX 23176 22836 15589; GX 15462 29899 15203; GI 15203 15201; GX 29891 15195 15202; GX 15201 15202 15546;
GX 15546 15520 29767; GX 29767 627 2027; GX 2027 2025 22910; GX 2027 2024 8772; GX 2029 2027 8774; GX 22908 8774 8759;
GX 22910 22908 22876; GX 22910 2026 22875; GX 2031 22875 8769; GA 8769 2031 8755; GA 8774 8759 8750; GX 15462 29898 15197;
GX 29890 29883 15198; GX 15197 15198 15548; GX 15548 15522 29766; GX 29766 628 2028; GX 2028 2029 22891; GX 15462 22292 15191;
GX 29896 22632 15192; GX 15191 15192 15550; GX 15550 15526 29764; GX 29764 630 2030; GX 2024 2030 8773; GX 2030 8770 8766;
GX 2030 2028 22907; GX 2029 22907 22909; GX 2025 22909 8761; GX 2026 22909 8758; GX 22916 22909 8760; GX 2030 2029 22928;
GX 8772 22928 8768; GX 22928 8767 8765; GX 22907 8772 8764; GX 2031 8764 8763; GX 22907 22876 8762; GA 8768 8764 8757;
GX 8757 22910 22915; GA 8765 8763 8756; GX 8750 8756 22920; GX 2024 22920 22935; GA 8773 8758 8754; GX 8754 22908 22914;
GA 8766 8770 8753; GA 8767 8760 8752; GA 8772 8761 8751; GX 8751 22909 22911; GX 22915 22911 22921; GX 22935 22921 8748;
GX 8750 8751 22890; GX 22890 22891 22942; GX 22942 22914 22939; GX 8753 22939 8747; GA 8771 8762 8749; GX 8749 8752 22913;
GX 8749 8755 22919; GX 8750 22913 22933; GX 2026 22919 22934; GX 22914 22913 22899; GX 22911 22899 8746; GX 22920 22919 22898;
GX 22908 22898 8745; GX 8753 22933 22889; GX 2030 22889 8740; GA 8748 8747 8744; GX 8744 8746 8743; GX 8744 22934 22888;
GX 22921 22888 8739; GA 8745 8743 8742; GX 8742 22921 22936; GX 22934 22936 8741; GX 8754 8742 22883; GX 22915 22883 22879;
GX 2024 22879 22882; GX 2026 22879 22878; GA 8739 8740 8738; GX 8738 8746 8737; GX 8744 8738 8736; GX 8738 22933 22887;
GX 8738 8755 22886; GX 22886 8752 22881; GX 22881 22882 8729; GA 8746 8736 8735; GX 8735 8743 8733; GX 8735 8753 22918;
GX 22918 22939 8727; GX 2030 22918 22926; GX 22926 22887 8734; GA 8741 8733 8732; GX 8732 8745 8731; GX 8732 8756 22885;
GX 22926 22885 22877; GX 22908 22877 22884; GX 22881 22884 8730; GX 8732 22936 22880; GX 22935 22880 8728; GX 22877 22878 8726;
GA 8727 8764 8725; GA 8734 8763 8724; GA 8737 2031 8723; GA 8728 8758 8722; GX 8722 8725 22924; GI 22924 22895;
GA 8731 8770 8721; GA 8741 8760 8720; GX 8720 8723 22931; GX 22931 22895 22906; GA 8729 8761 8719; GX 8719 8725 22929;
GX 8719 8722 22900; GA 8726 8759 8718; GX 8718 8721 22923; GX 8718 22929 22902; GA 8730 8762 8717; GA 8727 8768 8716;
GA 8734 8765 8715; GA 8737 8769 8714; GA 8728 8773 8713; GX 8713 8717 22925; GX 22923 22925 22937; GX 8720 22937 22903;
GX 22929 22925 22897; GA 8731 8766 8712; GA 8741 8767 8711; GX 8711 8723 22930; GX 8714 22930 22893; GA 8729 8772 8710;
GA 8726 8774 8709; GX 8709 8710 22912; GX 8715 22912 22917; GX 8716 22917 22922; GX 8724 22922 22927; GX 8712 22912 22932;
GX 8721 22927 22938; GX 22924 22938 29680; GX 22931 22938 29679; GX 8713 22932 22905; GX 22905 22906 22904; GX 22932 22903 8777;
GX 22927 22902 8776; GX 22923 22922 22901; GX 22900 22901 29683; GX 22895 22917 22894; GX 22893 22894 22892; GI 22892 22941;
GX 22941 22937 29678; GA 8730 8771 8708; GX 8708 8710 22896; GX 22896 22897 22940].
(** aes128_with_ks.txt:12504-12753 *)
Definition aes_enc_file_g50 : list gate := [
GX 22940 22930 8775; GI 8777 29677; GI 8776 29682; GI 8775 29681; GX 29683 29690 15832; GX 29682 29689 15863;
GX 29681 29688 15864; GX 29680 29687 15866; GX 29679 29686 15868; GX 29678 29685 15870; GX 29677 29684 15872; GX 22904 23244 15874;
GX 15870 29684 15733; GI 15864 15731; GX 15731 29687 15729; GX 15863 29688 15727; GI 15832 15687; GX 15687 29677 15697;
GX 15687 29679 15693; GX 15687 29680 15686; GX 15122 15102 15056; GX 21272 15056 30107; GX 30107 415 2055; GX 15121 15120 15053;
GX 15053 15054 15052; GI 15052 30108; GX 30108 414 2054; GX 15119 15118 15051; GX 30214 15051 30109; GX 30109 413 2053;
GX 2054 2053 22724; GX 15117 15116 15049; GX 15049 15050 30110; GX 30110 412 2052; GX 2054 2052 22703; GX 2053 22703 22705;
GX 2052 2053 22687; GX 15115 15114 15046; GX 15046 15047 15045; GI 15045 30111; GX 30111 411 2051; GX 2053 2051 8984;
GX 15113 15112 15044; GX 30217 15044 30112; GX 30112 410 2050; GX 2050 22705 8968; GX 15111 15110 15043; GX 30218 15043 30113;
GX 30113 409 2049; GX 2049 22705 8971; GX 2051 2049 22706; GX 2055 2049 22712; GX 22712 22705 8970; GX 2050 22712 8980;
GX 2054 8980 8976; GX 22706 2050 22671; GX 2055 22671 8979; GA 8979 2055 8965; GA 8976 8980 8963; GX 30205 15042 30114;
GX 30114 408 2048; GX 2048 2054 8983; GX 2048 2053 8981; GX 2050 2048 22704; GX 22704 8984 8969; GX 2051 2048 8982;
GX 8982 22724 8978; GX 22704 22712 8977; GX 22724 8977 8975; GX 22703 8982 8974; GX 2055 8974 8973; GX 22706 22704 22672;
GX 22703 22672 8972; GA 8978 8974 8967; GX 8967 22706 22711; GA 8975 8973 8966; GA 8983 8968 8964; GX 8964 22704 22710;
GA 8977 8970 8962; GA 8982 8971 8961; GX 8961 22705 22707; GX 22711 22707 22717; GA 8984 8969 8960; GX 8960 8966 22716;
GX 2048 22716 22731; GX 22731 22717 8958; GX 8960 8961 22686; GX 22686 22687 22738; GX 22738 22710 22735; GX 8963 22735 8957;
GA 8981 8972 8959; GX 8959 8962 22709; GX 8959 8965 22715; GX 8960 22709 22729; GX 2050 22715 22730; GX 22710 22709 22695;
GX 22707 22695 8956; GX 22716 22715 22694; GX 22704 22694 8955; GX 8963 22729 22685; GX 2054 22685 8950; GA 8958 8957 8954;
GX 8954 8956 8953; GX 8954 22730 22684; GX 22717 22684 8949; GA 8955 8953 8952; GX 8952 22717 22732; GX 22730 22732 8951;
GX 8964 8952 22679; GX 22711 22679 22675; GX 2048 22675 22678; GX 2050 22675 22674; GA 8949 8950 8948; GX 8948 8956 8947;
GX 8954 8948 8946; GX 8948 22729 22683; GX 8948 8965 22682; GX 22682 8962 22677; GX 22677 22678 8939; GA 8956 8946 8945;
GX 8945 8953 8943; GX 8945 8963 22714; GX 22714 22735 8937; GX 2054 22714 22722; GX 22722 22683 8944; GA 8951 8943 8942;
GX 8942 8955 8941; GX 8942 8966 22681; GX 22722 22681 22673; GX 22704 22673 22680; GX 22677 22680 8940; GX 8942 22732 22676;
GX 22731 22676 8938; GX 22673 22674 8936; GA 8937 8974 8935; GA 8944 8973 8934; GA 8947 2055 8933; GA 8938 8968 8932;
GX 8932 8935 22720; GI 22720 22691; GA 8941 8980 8931; GA 8951 8970 8930; GX 8930 8933 22727; GX 22727 22691 22702;
GA 8939 8971 8929; GX 8929 8935 22725; GX 8929 8932 22696; GA 8936 8969 8928; GX 8928 8931 22719; GX 8928 22725 22698;
GA 8940 8972 8927; GA 8937 8978 8926; GA 8944 8975 8925; GA 8947 8979 8924; GA 8938 8983 8923; GX 8923 8927 22721;
GX 22719 22721 22733; GX 8930 22733 22699; GX 22725 22721 22693; GA 8941 8976 8922; GA 8951 8977 8921; GX 8921 8933 22726;
GX 8924 22726 22689; GA 8939 8982 8920; GA 8936 8984 8919; GX 8919 8920 22708; GX 8925 22708 22713; GX 8926 22713 22718;
GX 8934 22718 22723; GX 8922 22708 22728; GX 8931 22723 22734; GX 22720 22734 29983; GX 22727 22734 29982; GX 8923 22728 22701;
GX 22701 22702 22700; GX 22728 22699 8987; GX 22723 22698 8986; GX 22719 22718 22697; GX 22696 22697 29986; GX 22691 22713 22690;
GX 22689 22690 22688; GI 22688 22737; GX 22737 22733 29981; GA 8940 8981 8918; GX 8918 8920 22692; GX 22692 22693 22736;
GX 22736 22726 8985; GI 8987 29980; GI 8986 29985; GI 8985 29984; GX 29965 29986 15457; GX 29979 29986 15465;
GX 29978 29985 15472; GX 29977 29984 15473; GX 29976 29983 15475; GX 29975 29982 15477; GX 29974 29981 15479; GX 29973 29980 15481;
GX 22360 22700 15483; GI 15473 15454; GX 15454 29983 15452; GX 15452 15453 29848; GX 29848 514 1946; GX 15472 29984 15450;
GX 15450 15451 29849; GX 29849 513 1945; GX 15456 29986 15448; GX 29985 29964 15449; GX 15448 15449 29850; GX 29850 512 1944;
GX 1946 1944 23588; GX 15483 15464 15447; GX 21680 15447 29851; GX 29851 527 1943; GX 15485 15481 15445; GX 15445 15446 29852;
GX 29852 526 1942; GX 15484 15479 15444; GX 29960 15444 29853; GX 29853 525 1941; GX 1942 1941 23676; GX 15482 15477 15442;
GX 15442 15443 29854; GX 29854 524 1940; GX 1940 1941 23639; GX 1942 1940 23655; GX 1941 23655 23657; GX 15480 15475 15440;
GX 15440 15441 29855; GX 29855 523 1939; GX 1941 1939 8004; GX 15478 15473 15439; GX 29963 15439 29856; GX 29856 522 1938;
GX 1938 23657 7988; GX 15476 15472 15437; GX 29964 15437 29857; GX 29857 521 1937; GX 1943 1937 23664; GX 1938 23664 8000;
GX 1939 1937 23658; GX 23658 1938 23623; GX 1943 23623 7999; GA 7999 1943 7985; GI 15457 15245; GX 15428 15245 15436;
GX 29979 15436 29858; GX 29858 520 1936; GX 1939 1936 8002; GX 23655 8002 7994].
(** aes128_with_ks.txt:12754-13003 *)
Definition aes_enc_file_g51 : list gate := [
GX 1936 1941 8001; GX 1938 1936 23656; GX 23656 8004 7989; GX 23658 23656 23624; GX 23656 23664 7997; GX 23655 23624 7992;
GA 8004 7989 7980; GA 8001 7992 7979; GX 7979 7985 23667; GX 1938 23667 23682; GX 1943 7994 7993; GX 22700 15435 29859;
GX 29859 535 1935; GX 15482 29981 15434; GI 15434 15432; GX 15432 15433 29861; GX 29861 533 1933; GX 15476 29984 15430;
GX 15430 15431 15429; GI 15429 29864; GX 29864 530 1930; GX 15428 29985 15425; GX 15425 15426 29865; GX 29865 529 1929;
GX 1935 1929 23732; GX 1930 23732 7930; GX 15457 29978 15423; GX 15423 15424 29866; GX 29866 528 1928; GX 1930 1928 23724;
GX 1928 1933 7931; GX 23724 23732 7927; GX 15485 15465 15419; GX 22360 15419 29867; GX 29867 543 1927; GX 15484 15483 15416;
GX 15465 15418 15417; GX 15416 15417 15415; GI 15415 29868; GX 29868 542 1926; GX 15482 15481 15414; GX 29974 15414 29869;
GX 29869 541 1925; GX 1926 1925 23812; GX 15480 15479 15412; GX 15465 29975 15413; GX 15412 15413 29870; GX 29870 540 1924;
GX 1924 1925 23775; GX 1926 1924 23791; GX 1925 23791 23793; GX 15478 15477 15409; GX 15465 15411 15410; GX 15409 15410 15408;
GI 15408 29871; GX 29871 539 1923; GX 1925 1923 7864; GX 15476 15475 15407; GX 29977 15407 29872; GX 29872 538 1922;
GX 1922 23793 7848; GX 15474 15473 15406; GX 29978 15406 29873; GX 29873 537 1921; GX 1921 23793 7851; GX 1927 1921 23800;
GX 1923 1921 23794; GX 23794 1922 23759; GX 1922 23800 7860; GX 1927 23759 7859; GA 7859 1927 7845; GX 15472 15456 15405;
GX 29965 15405 29874; GX 29874 536 1920; GX 1920 1926 7863; GX 1922 1920 23792; GX 23792 23800 7857; GX 1923 1920 7862;
GX 7862 23812 7858; GX 23791 7862 7854; GA 7858 7854 7847; GX 7847 23794 23799; GA 7862 7851 7841; GX 7841 23793 23795;
GX 23799 23795 23805; GX 1927 7854 7853; GX 23812 7857 7855; GA 7855 7853 7846; GX 23794 23792 23760; GX 23792 7864 7849;
GX 23791 23760 7852; GA 7863 7848 7844; GX 7844 23792 23798; GA 7864 7849 7840; GX 7840 7841 23774; GX 23774 23775 23826;
GX 7840 7846 23804; GX 1920 23804 23819; GX 23826 23798 23823; GX 15483 15457 15259; GX 22020 15259 29843; GX 29843 519 1951;
GX 1951 1945 23596; GX 1946 23596 8070; GX 23588 23596 8067; GX 15479 29959 15257; GX 29980 29967 15258; GX 15257 15258 29845;
GX 29845 517 1949; GX 1944 1949 8071; GX 15456 29983 15252; GI 15252 15250; GX 15250 15251 15528; GX 15528 15478 29863;
GX 29863 531 1931; GX 1931 1928 7932; GX 1933 1931 7934; GX 23724 7934 7919; GA 7934 7919 7910; GX 1931 1929 23726;
GX 23726 1930 23691; GX 1935 23691 7929; GX 23726 23724 23692; GA 7929 1935 7915; GX 15457 29961 15248; GX 29982 29969 15249;
GX 15248 15249 15529; GX 15529 15475 29847; GX 29847 515 1947; GX 1947 1945 23590; GX 23590 23588 23556; GX 1947 1944 8072;
GX 1949 1947 8074; GX 23588 8074 8059; GA 8074 8059 8050; GX 23590 1946 23555; GX 1951 23555 8069; GA 8069 1951 8055;
GX 15456 29982 15246; GX 15246 15247 15530; GX 15530 15480 29862; GX 29862 532 1932; GX 1932 1933 23707; GX 15245 29960 15242;
GX 29981 15244 15243; GX 15242 15243 15531; GX 15531 15477 29846; GX 29846 516 1948; GX 1948 1949 23571; GX 15456 29980 15240;
GX 15240 15241 15532; GX 15532 15484 29860; GX 29860 534 1934; GX 1934 1933 23744; GX 1934 1932 23723; GX 23723 23692 7922;
GA 7931 7922 7909; GX 23723 7932 7924; GX 1933 23723 23725; GX 23732 23725 7920; GX 7909 7915 23735; GX 1930 23735 23750;
GA 7927 7920 7912; GX 7909 7912 23729; GX 7910 23729 23749; GX 1929 23725 7921; GA 7932 7921 7911; GX 7911 23725 23727;
GX 7910 7911 23706; GX 23706 23707 23758; GX 1930 23725 7918; GX 1935 7924 7923; GX 23744 7927 7925; GA 7925 7923 7916;
GX 7910 7916 23736; GX 23736 23735 23714; GX 23724 23714 7905; GX 1928 23736 23751; GX 1928 1934 7933; GA 7933 7918 7914;
GX 7914 23724 23730; GX 23730 23729 23715; GX 23727 23715 7906; GX 23758 23730 23755; GX 7932 23744 7928; GA 7928 7924 7917;
GX 7917 23726 23731; GX 23731 23727 23737; GX 15457 21680 15238; GX 22700 29966 15239; GX 15238 15239 15533; GX 15533 15481 29844;
GX 29844 518 1950; GX 1950 8070 8066; GA 8066 8070 8053; GX 1944 1950 8073; GX 1950 1948 23587; GX 23587 23556 8062;
GA 8071 8062 8049; GX 23587 8072 8064; GX 1951 8064 8063; GX 8049 8055 23599; GX 1946 23599 23614; GX 1949 23587 23589;
GX 1945 23589 8061; GX 1946 23589 8058; GA 8073 8058 8054; GX 23596 23589 8060; GX 8054 23588 23594; GX 1950 1949 23608;
GX 8072 23608 8068; GX 23608 8067 8065; GA 8065 8063 8056; GA 8068 8064 8057; GX 8057 23590 23595; GX 8050 8056 23600;
GX 1944 23600 23615; GX 23600 23599 23578; GX 23588 23578 8045; GA 8067 8060 8052; GX 8049 8052 23593; GX 23594 23593 23579;
GX 8050 23593 23613; GX 8053 23613 23569; GX 1950 23569 8040; GA 8072 8061 8051; GX 8051 23589 23591; GX 23591 23579 8046;
GX 23595 23591 23601; GX 23615 23601 8048; GX 8050 8051 23570; GX 23570 23571 23622; GX 23622 23594 23619; GX 8053 23619 8047;
GA 8048 8047 8044; GX 8044 8046 8043; GA 8045 8043 8042; GX 8054 8042 23563; GX 8042 23601 23616; GX 23614 23616 8041;
GA 8041 8067 8011; GX 8044 23614 23568; GX 23601 23568 8039; GA 8039 8040 8038; GX 8038 8046 8037; GA 8037 8069 8014;
GA 8037 1951 8023; GX 8038 23613 23567; GX 8044 8038 8036; GA 8046 8036 8035].
(** aes128_with_ks.txt:13004-13253 *)
Definition aes_enc_file_g52 : list gate := [
GX 8035 8043 8033; GA 8041 8033 8032; GX 8032 23616 23560; GX 23615 23560 8028; GA 8028 8073 8013; GA 8028 8058 8022;
GX 8032 8045 8031; GA 8031 8066 8012; GX 8035 8053 23598; GX 23598 23619 8027; GA 8027 8068 8016; GA 8027 8064 8025;
GX 1950 23598 23606; GX 23606 23567 8034; GA 8034 8065 8015; GA 8034 8063 8024; GX 8022 8025 23604; GI 23604 23575;
GX 8011 8023 23610; GX 8014 23610 23573; GX 8038 8055 23566; GX 23566 8052 23561; GX 8032 8056 23565; GX 23606 23565 23557;
GX 23588 23557 23564; GX 23561 23564 8030; GA 8030 8062 8017; GA 8030 8071 8008; GX 8013 8017 23605; GX 23595 23563 23559;
GX 1944 23559 23562; GX 23561 23562 8029; GA 8029 8072 8010; GX 8008 8010 23576; GA 8029 8061 8019; GX 8019 8025 23609;
GX 23609 23605 23577; GX 23576 23577 23620; GX 23620 23610 8075; GI 8075 29695; GX 29695 29702 15853; GX 29703 29695 15669;
GX 8019 8022 23580; GX 1946 23559 23558; GX 23557 23558 8026; GA 8026 8059 8018; GA 8026 8074 8009; GX 8009 8010 23592;
GX 8012 23592 23612; GX 8015 23592 23597; GX 8016 23597 23602; GX 8024 23602 23607; GX 8013 23612 23585; GX 8018 23609 23582;
GX 23607 23582 8076; GI 8076 29696; GX 29696 29703 15851; GI 15851 15644; GX 23575 23597 23574; GX 23573 23574 23572;
GI 23572 23621; GA 8031 8070 8021; GX 8018 8021 23603; GX 23603 23605 23617; GX 8021 23607 23618; GX 23604 23618 29694;
GX 29694 29701 15855; GX 15643 29694 15675; GX 23621 23617 29692; GX 29692 29699 15859; GI 15859 15649; GX 15592 29692 15591;
GX 23603 23602 23581; GX 23580 23581 29697; GX 29697 29704 15829; GI 15829 15658; GX 15658 29694 15657; GA 8041 8060 8020;
GX 8020 23617 23583; GX 8020 8023 23611; GX 23611 23618 29693; GX 29693 29700 15857; GX 15658 29693 15660; GI 15857 15632;
GX 29701 29693 15598; GX 23611 23575 23586; GX 23585 23586 23584; GX 23584 22836 15862; GI 15862 15664; GX 15862 15821 15650;
GX 15586 23584 15585; GX 23612 23583 8077; GI 8077 29691; GX 29691 29698 15861; GX 15595 29691 15679; GX 15658 29691 15663;
GI 15861 15637; GX 1920 1925 7861; GA 7861 7852 7839; GX 7839 7845 23803; GX 1922 23803 23818; GX 23804 23803 23782;
GX 23792 23782 7835; GX 23819 23805 7838; GX 1926 7860 7856; GA 7856 7860 7843; GX 7843 23823 7837; GA 7838 7837 7834;
GX 7834 23818 23772; GX 23805 23772 7829; GX 23800 23793 7850; GA 7857 7850 7842; GX 7839 7842 23797; GX 23798 23797 23783;
GX 7840 23797 23817; GX 7843 23817 23773; GX 1926 23773 7830; GA 7829 7830 7828; GX 7828 23817 23771; GX 7828 7845 23770;
GX 23770 7842 23765; GX 23795 23783 7836; GX 7834 7836 7833; GA 7835 7833 7832; GX 7832 23805 23820; GX 7844 7832 23767;
GX 23799 23767 23763; GX 1920 23763 23766; GX 23765 23766 7819; GA 7819 7851 7809; GX 1922 23763 23762; GX 23818 23820 7831;
GA 7831 7850 7810; GA 7831 7857 7801; GA 7819 7862 7800; GX 7828 7836 7827; GA 7827 7859 7804; GA 7827 1927 7813;
GX 7801 7813 23814; GX 7810 7813 23815; GX 7804 23814 23777; GX 7834 7828 7826; GA 7836 7826 7825; GX 7825 7833 7823;
GX 7825 7843 23802; GX 1926 23802 23810; GX 23810 23771 7824; GA 7824 7855 7805; GX 23802 23823 7817; GA 7817 7854 7815;
GX 7809 7815 23813; GA 7817 7858 7806; GA 7824 7853 7814; GA 7831 7823 7822; GX 7822 7846 23769; GX 23810 23769 23761;
GX 23761 23762 7816; GA 7816 7849 7808; GX 7808 23813 23786; GX 7822 7835 7821; GA 7821 7860 7811; GX 7808 7811 23807;
GX 7822 23820 23764; GX 23819 23764 7818; GA 7818 7863 7803; GA 7821 7856 7802; GA 7816 7864 7799; GX 7799 7800 23796;
GX 7805 23796 23801; GX 7806 23801 23806; GX 23807 23806 23785; GX 7802 23796 23816; GX 7803 23816 23789; GX 23792 23761 23768;
GX 23765 23768 7820; GA 7820 7852 7807; GA 7820 7861 7798; GX 7798 7800 23780; GX 7803 7807 23809; GX 23813 23809 23781;
GX 23807 23809 23821; GX 7810 23821 23787; GX 23816 23787 7867; GI 7867 29740; GX 29740 29727 15621; GX 23780 23781 23824;
GX 7814 23806 23811; GX 23811 23786 7866; GX 7811 23811 23822; GI 7866 29745; GX 29745 29724 15812; GX 15791 29745 15788;
GA 7818 7848 7812; GX 7812 7815 23808; GX 7809 7812 23784; GX 23784 23785 29746; GX 29725 29746 15820; GI 15820 15608;
GX 15791 15608 15799; GX 15820 29721 15611; GX 15608 29720 15605; GX 15820 22768 15601; GI 23808 23779; GX 23779 23801 23778;
GX 23815 23779 23790; GX 23789 23790 23788; GX 23788 29726 15602; GX 15601 15602 15896; GX 23777 23778 23776; GI 23776 23825;
GX 23825 23821 29741; GX 15845 29741 15797; GI 15797 15795; GX 29741 15607 15606; GX 15605 15606 15894; GX 23808 23822 29743;
GX 23824 23814 7865; GI 7865 29744; GX 15839 29744 15793; GX 23815 23822 29742; GX 29742 29729 15612; GX 15611 15612 15892;
GX 23751 23737 7908; GX 1934 7930 7926; GA 7926 7930 7913; GX 7913 23755 7907; GX 7913 23749 23705; GA 7908 7907 7904;
GX 7904 23750 23704; GX 23737 23704 7899; GX 7904 7906 7903; GA 7905 7903 7902; GX 7914 7902 23699; GX 7902 23737 23752;
GX 23750 23752 7901; GX 23731 23699 23695; GX 1928 23695 23698; GX 1930 23695 23694; GA 7901 7920 7880; GX 1934 23705 7900;
GA 7899 7900 7898; GX 7898 7906 7897; GA 7897 1935 7883; GA 7897 7929 7874; GX 7904 7898 7896; GX 7880 7883 23747;
GX 7898 23749 23703; GX 7898 7915 23702; GX 23702 7912 23697; GX 23697 23698 7889].
(** aes128_with_ks.txt:13254-13503 *)
Definition aes_enc_file_g53 : list gate := [
GA 7889 7932 7870; GA 7906 7896 7895; GX 7895 7913 23734; GX 23734 23755 7887; GX 1934 23734 23742; GX 23742 23703 7894;
GA 7894 7925 7875; GA 7887 7924 7885; GX 7895 7903 7893; GA 7887 7928 7876; GA 7894 7923 7884; GA 7889 7921 7879;
GX 7879 7885 23745; GA 7901 7893 7892; GX 7892 7905 7891; GA 7891 7930 7881; GA 7891 7926 7872; GX 7892 23752 23696;
GX 23751 23696 7888; GA 7888 7918 7882; GX 7879 7882 23716; GA 7888 7933 7873; GX 7882 7885 23740; GI 23740 23711;
GX 23747 23711 23722; GX 7892 7916 23701; GX 23742 23701 23693; GX 23724 23693 23700; GX 23693 23694 7886; GA 7886 7934 7869;
GA 7886 7919 7878; GX 7878 23745 23718; GX 7878 7881 23739; GX 7869 7870 23728; GX 7875 23728 23733; GX 7876 23733 23738;
GX 7884 23738 23743; GX 7881 23743 23754; GX 23747 23754 29651; GX 29651 29658 15882; GX 7872 23728 23748; GX 23740 23754 29652;
GX 29652 29659 15880; GX 23711 23733 23710; GX 23697 23700 7890; GA 7890 7922 7877; GX 7873 7877 23741; GX 23739 23741 23753;
GX 7880 23753 23719; GA 7890 7931 7868; GX 7868 7870 23712; GX 23748 23719 7937; GX 7873 23748 23721; GX 23721 23722 23720;
GX 23720 22972 15888; GX 15888 15826 15818; GX 29656 23720 15555; GX 23739 23738 23717; GX 23716 23717 29655; GX 29655 29662 15834;
GI 15834 15743; GX 15743 29651 15746; GX 15743 29652 15742; GX 23745 23741 23713; GX 23712 23713 23756; GA 7901 7927 7871;
GX 7871 7883 23746; GX 7874 23746 23709; GX 23709 23710 23708; GX 23756 23746 7935; GI 7935 29653; GX 29653 29660 15878;
GI 15878 15691; GX 15691 29638 15688; GI 23708 23757; GX 23757 23753 29650; GX 29650 29657 15884; GX 15884 29656 15738;
GX 23743 23718 7936; GI 7937 29649; GX 29649 29656 15886; GX 29657 29649 15761; GX 15743 29649 15750; GI 7936 29654;
GX 29654 29661 15877; GX 15826 29654 15753; GI 15877 15673; GX 15673 29639 15671; GX 1937 23657 7991; GA 8002 7991 7981;
GX 7980 7981 23638; GX 23638 23639 23690; GX 8002 23676 7998; GA 7998 7994 7987; GX 7987 23658 23663; GX 1936 1942 8003;
GA 8003 7988 7984; GX 7984 23656 23662; GX 23690 23662 23687; GX 1942 8000 7996; GA 7996 8000 7983; GX 7983 23687 7977;
GX 23676 7997 7995; GA 7995 7993 7986; GX 7980 7986 23668; GX 23668 23667 23646; GX 23656 23646 7975; GX 1936 23668 23683;
GX 23664 23657 7990; GA 7997 7990 7982; GX 7979 7982 23661; GX 23662 23661 23647; GX 7980 23661 23681; GX 7983 23681 23637;
GX 1942 23637 7970; GX 7981 23657 23659; GX 23663 23659 23669; GX 23659 23647 7976; GX 23683 23669 7978; GA 7978 7977 7974;
GX 7974 7976 7973; GX 7974 23682 23636; GX 23669 23636 7969; GA 7975 7973 7972; GX 7972 23669 23684; GX 7984 7972 23631;
GX 23663 23631 23627; GX 1936 23627 23630; GX 1938 23627 23626; GA 7969 7970 7968; GX 7968 23681 23635; GX 7968 7976 7967;
GA 7967 7999 7944; GA 7967 1943 7953; GX 7968 7985 23634; GX 23634 7982 23629; GX 23629 23630 7959; GA 7959 8002 7940;
GA 7959 7991 7949; GX 23682 23684 7971; GA 7971 7990 7950; GX 7950 7953 23679; GA 7971 7997 7941; GX 7941 7953 23678;
GX 7944 23678 23641; GX 7974 7968 7966; GA 7976 7966 7965; GX 7965 7973 7963; GX 7965 7983 23666; GX 1942 23666 23674;
GA 7971 7963 7962; GX 7962 7975 7961; GX 7962 7986 23633; GX 23674 23635 7964; GA 7964 7995 7945; GX 23666 23687 7957;
GA 7957 7998 7946; GA 7961 7996 7942; GA 7957 7994 7955; GA 7964 7993 7954; GX 23674 23633 23625; GX 23656 23625 23632;
GX 23629 23632 7960; GA 7960 8001 7938; GX 7938 7940 23644; GX 7949 7955 23677; GX 7962 23684 23628; GX 23683 23628 7958;
GA 7958 8003 7943; GX 23625 23626 7956; GA 7956 8004 7939; GA 7958 7988 7952; GX 7952 7955 23672; GI 23672 23643;
GX 23679 23643 23654; GX 7949 7952 23648; GA 7961 8000 7951; GA 7956 7989 7948; GX 7948 23677 23650; GX 7948 7951 23671;
GA 7960 7992 7947; GX 7943 7947 23673; GX 23677 23673 23645; GX 23644 23645 23688; GX 23688 23678 8005; GI 8005 29674;
GX 23671 23673 23685; GX 7950 23685 23651; GI 29674 15704; GX 29681 15704 15703; GX 7939 7940 23660; GX 7945 23660 23665;
GX 7946 23665 23670; GX 7942 23660 23680; GX 7943 23680 23653; GX 23671 23670 23649; GX 23653 23654 23652; GX 23680 23651 8007;
GI 8007 29670; GX 23648 23649 29676; GX 7954 23670 23675; GX 7951 23675 23686; GX 23672 23686 29673; GX 23679 23686 29672;
GX 23675 23650 8006; GI 8006 29675; GX 23643 23665 23642; GX 23641 23642 23640; GI 23640 23689; GX 23689 23685 29671;
GX 29676 29683 15823; GI 29671 15578; GX 15823 29690 15725; GI 29670 15569; GX 29677 15569 15709; GX 29680 29673 15707;
GX 29676 29675 15701; GX 15863 15823 15681; GI 15823 15579; GX 15579 29687 15582; GI 29672 15575; GX 29679 15575 15583;
GX 15582 15583 15903; GX 15579 29686 15576; GX 29678 15578 15577; GX 15576 15577 15905; GX 15823 29684 15571; GX 22904 23652 15572;
GX 15571 15572 15907; GX 15120 15094 14896; GX 20932 14896 30083; GX 30083 391 2079; GX 2079 2073 22508; GX 2074 22508 9190;
GX 22500 22508 9187; GX 15116 30199 14894; GX 14894 14895 30085; GX 30085 389 2077; GX 2072 2077 9191; GX 15094 30201 14885;
GX 14885 14886 15166; GX 15166 15112 30087; GX 30087 387 2075; GX 2075 2073 22502; GX 2075 2072 9192; GX 2077 2075 9194;
GX 22500 9194 9179; GX 22502 22500 22468; GX 22502 2074 22467; GX 2079 22467 9189].
(** aes128_with_ks.txt:13504-13753 *)
Definition aes_enc_file_g54 : list gate := [
GA 9189 2079 9175; GA 9194 9179 9170; GX 14882 30200 14879; GX 14879 14880 15168; GX 15168 15114 30086; GX 30086 388 2076;
GX 2076 2077 22483; GX 15094 20592 14875; GX 14875 14876 15170; GX 15170 15118 30084; GX 30084 390 2078; GX 2072 2078 9193;
GX 2078 9190 9186; GX 2078 2076 22499; GX 2077 22499 22501; GX 2073 22501 9181; GX 2074 22501 9178; GX 22508 22501 9180;
GX 2078 2077 22520; GX 9192 22520 9188; GX 22520 9187 9185; GX 22499 9192 9184; GX 2079 9184 9183; GX 22499 22468 9182;
GA 9188 9184 9177; GX 9177 22502 22507; GA 9185 9183 9176; GX 9170 9176 22512; GX 2072 22512 22527; GA 9193 9178 9174;
GX 9174 22500 22506; GA 9186 9190 9173; GA 9187 9180 9172; GA 9192 9181 9171; GX 9171 22501 22503; GX 22507 22503 22513;
GX 22527 22513 9168; GX 9170 9171 22482; GX 22482 22483 22534; GX 22534 22506 22531; GX 9173 22531 9167; GA 9191 9182 9169;
GX 9169 9172 22505; GX 9169 9175 22511; GX 9170 22505 22525; GX 2074 22511 22526; GX 22506 22505 22491; GX 22503 22491 9166;
GX 22512 22511 22490; GX 22500 22490 9165; GX 9173 22525 22481; GX 2078 22481 9160; GA 9168 9167 9164; GX 9164 9166 9163;
GX 9164 22526 22480; GX 22513 22480 9159; GA 9165 9163 9162; GX 9162 22513 22528; GX 22526 22528 9161; GX 9174 9162 22475;
GX 22507 22475 22471; GX 2072 22471 22474; GX 2074 22471 22470; GA 9159 9160 9158; GX 9158 9166 9157; GX 9164 9158 9156;
GX 9158 22525 22479; GX 9158 9175 22478; GX 22478 9172 22473; GX 22473 22474 9149; GA 9166 9156 9155; GX 9155 9163 9153;
GX 9155 9173 22510; GX 22510 22531 9147; GX 2078 22510 22518; GX 22518 22479 9154; GA 9161 9153 9152; GX 9152 9165 9151;
GX 9152 9176 22477; GX 22518 22477 22469; GX 22500 22469 22476; GX 22473 22476 9150; GX 9152 22528 22472; GX 22527 22472 9148;
GX 22469 22470 9146; GA 9147 9184 9145; GA 9154 9183 9144; GA 9157 2079 9143; GA 9148 9178 9142; GX 9142 9145 22516;
GI 22516 22487; GA 9151 9190 9141; GA 9161 9180 9140; GX 9140 9143 22523; GX 22523 22487 22498; GA 9149 9181 9139;
GX 9139 9145 22521; GX 9139 9142 22492; GA 9146 9179 9138; GX 9138 9141 22515; GX 9138 22521 22494; GA 9150 9182 9137;
GA 9147 9188 9136; GA 9154 9185 9135; GA 9157 9189 9134; GA 9148 9193 9133; GX 9133 9137 22517; GX 22515 22517 22529;
GX 9140 22529 22495; GX 22521 22517 22489; GA 9151 9186 9132; GA 9161 9187 9131; GX 9131 9143 22522; GX 9134 22522 22485;
GA 9149 9192 9130; GA 9146 9194 9129; GX 9129 9130 22504; GX 9135 22504 22509; GX 9136 22509 22514; GX 9144 22514 22519;
GX 9132 22504 22524; GX 9141 22519 22530; GX 22516 22530 29934; GX 22523 22530 29933; GX 9133 22524 22497; GX 22497 22498 22496;
GX 22524 22495 9197; GX 22519 22494 9196; GX 22515 22514 22493; GX 22492 22493 29937; GX 22487 22509 22486; GX 22485 22486 22484;
GI 22484 22533; GX 22533 22529 29932; GA 9150 9191 9128; GX 9128 9130 22488; GX 22488 22489 22532; GX 22532 22522 9195;
GI 9197 29931; GI 9196 29936; GI 9195 29935; GX 29937 29958 15459; GX 29937 29944 15466; GX 29936 29943 15488;
GX 29935 29942 15490; GX 29934 29941 15492; GX 15534 15492 29831; GX 29831 563 1963; GX 29933 29940 15494; GX 15536 15494 29830;
GX 29830 564 1964; GX 29932 29939 15496; GX 29931 29938 15498; GX 15538 15498 29828; GX 29828 566 1966; GX 1966 1964 23451;
GX 22496 21748 15499; GX 15497 15459 15317; GX 21748 15317 29811; GX 29811 551 1983; GX 15232 29931 15316; GX 15315 15316 15314;
GI 15314 29813; GX 29813 549 1981; GX 15280 29934 15312; GX 15311 15312 29816; GX 29816 546 1978; GX 29943 29935 15306;
GX 15305 15306 29817; GX 29817 545 1977; GX 1983 1977 23324; GX 1978 23324 8350; GX 29957 29936 15304; GX 15303 15304 29818;
GX 29818 544 1976; GX 15497 15466 15302; GX 22496 15302 29819; GX 29819 559 1975; GI 15499 15301; GX 15301 15495 15299;
GI 15466 15295; GX 15295 29931 15300; GX 15299 15300 29820; GX 29820 558 1974; GX 15498 15493 15298; GX 29932 15298 29821;
GX 29821 557 1973; GX 1974 1973 23404; GI 15496 15286; GX 15286 15491 15296; GX 15295 29933 15297; GX 15296 15297 29822;
GX 29822 556 1972; GX 1972 1973 23367; GX 1974 1972 23383; GX 1973 23383 23385; GI 15494 15269; GX 15269 15489 15293;
GX 15295 29934 15294; GX 15293 15294 29823; GX 29823 555 1971; GX 1973 1971 8284; GX 15492 15487 15292; GX 29935 15292 29824;
GX 29824 554 1970; GX 1970 23385 8268; GX 15490 15486 15291; GX 29936 15291 29825; GX 29825 553 1969; GX 1969 23385 8271;
GX 1971 1969 23386; GX 23386 1970 23351; GX 1975 23351 8279; GA 8279 1975 8265; GX 1975 1969 23392; GX 23392 23385 8270;
GX 1970 23392 8280; GI 15488 15281; GI 15459 15224; GX 15281 15224 15290; GX 29951 15290 29826; GX 29826 552 1968;
GX 1968 1974 8283; GX 1970 1968 23384; GX 23384 8284 8269; GA 8284 8269 8260; GX 23384 23392 8277; GA 8277 8270 8262;
GX 23386 23384 23352; GX 23383 23352 8272; GA 8283 8268 8264; GX 1971 1968 8282; GX 8282 23404 8278; GA 8282 8271 8261;
GX 8261 23385 23387; GX 8264 23384 23390; GX 23383 8282 8274; GA 8278 8274 8267; GX 1975 8274 8273; GX 8267 23386 23391;
GX 23391 23387 23397; GX 15499 15458 15287; GX 22428 15287 29827; GX 29827 567 1967; GX 15286 29953 15284; GX 15284 15285 29829;
GX 29829 565 1965; GX 1965 1963 8214; GX 1966 1965 23472; GX 1965 23451 23453].
(** aes128_with_ks.txt:13754-14003 *)
Definition aes_enc_file_g55 : list gate := [
GX 1964 1965 23435; GX 15490 29956 15282; GX 15282 15283 29832; GX 29832 562 1962; GX 1962 23453 8198; GX 15281 29957 15278;
GX 15278 15279 29833; GX 29833 561 1961; GX 1967 1961 23460; GX 23460 23453 8200; GX 1963 1961 23454; GX 23454 1962 23419;
GX 1967 23419 8209; GA 8209 1967 8195; GX 1962 23460 8210; GX 1966 8210 8206; GA 8206 8210 8193; GX 15459 29950 15276;
GX 15276 15277 29834; GX 29834 560 1960; GX 1960 1966 8213; GX 1960 1965 8211; GX 1963 1960 8212; GX 23451 8212 8204;
GA 8213 8198 8194; GX 8212 23472 8208; GA 8208 8204 8197; GX 8197 23454 23459; GX 1967 8204 8203; GX 15499 15467 15275;
GX 22088 15275 29835; GX 29835 575 1959; GI 15498 15274; GX 15274 15497 15272; GX 15272 15273 29836; GX 29836 574 1958;
GX 15496 15495 15270; GX 29946 15270 29837; GX 29837 573 1957; GX 1958 1957 23540; GX 15269 15493 15267; GX 15267 15268 29838;
GX 29838 572 1956; GX 1956 1957 23503; GX 1958 1956 23519; GX 1957 23519 23521; GX 15492 15491 15264; GX 15264 15265 15263;
GI 15263 29839; GX 29839 571 1955; GX 1957 1955 8144; GX 15490 15489 15262; GX 29949 15262 29840; GX 29840 570 1954;
GX 1954 23521 8128; GX 15488 15487 15261; GX 29950 15261 29841; GX 29841 569 1953; GX 1959 1953 23528; GX 23528 23521 8130;
GX 1953 23521 8131; GX 1954 23528 8140; GX 1958 8140 8136; GA 8136 8140 8123; GX 1955 1953 23522; GX 23522 1954 23487;
GX 1959 23487 8139; GA 8139 1959 8125; GX 29937 15260 29842; GX 29842 568 1952; GX 1952 1958 8143; GA 8143 8128 8124;
GX 1955 1952 8142; GX 8142 23540 8138; GA 8142 8131 8121; GX 23519 8142 8134; GX 1952 1957 8141; GX 8121 23521 23523;
GX 1959 8134 8133; GA 8138 8134 8127; GX 8127 23522 23527; GX 23527 23523 23533; GX 1968 1973 8281; GA 8281 8272 8259;
GX 8259 8265 23395; GX 1970 23395 23410; GX 8259 8262 23389; GX 8260 23389 23409; GX 23390 23389 23375; GX 23387 23375 8256;
GX 15459 29954 15234; GX 29941 29933 15235; GX 15234 15235 15535; GX 15535 15489 29815; GX 29815 547 1979; GX 1981 1979 8354;
GX 1979 1976 8352; GX 1979 1977 23318; GX 23318 1978 23283; GX 1983 23283 8349; GA 8349 1983 8335; GX 15224 29953 15227;
GX 15229 29932 15228; GX 15227 15228 15537; GX 15537 15491 29814; GX 29814 548 1980; GX 1980 1981 23299; GX 15224 22428 15221;
GX 15223 22496 15222; GX 15221 15222 15539; GX 15539 15495 29812; GX 29812 550 1982; GX 1976 1982 8353; GX 1954 1952 23520;
GX 23520 23528 8137; GX 8124 23520 23526; GX 23522 23520 23488; GA 8137 8130 8122; GX 23540 8137 8135; GX 23519 23488 8132;
GA 8141 8132 8119; GX 8119 8122 23525; GX 23526 23525 23511; GX 23520 8144 8129; GA 8144 8129 8120; GX 8119 8125 23531;
GX 8120 8121 23502; GX 8120 23525 23545; GX 8123 23545 23501; GX 23502 23503 23554; GX 23554 23526 23551; GX 8123 23551 8117;
GX 23523 23511 8116; GA 8135 8133 8126; GX 1954 23531 23546; GX 1958 23501 8110; GX 8120 8126 23532; GX 1952 23532 23547;
GX 23547 23533 8118; GA 8118 8117 8114; GX 8114 8116 8113; GX 8114 23546 23500; GX 23533 23500 8109; GX 23532 23531 23510;
GX 23520 23510 8115; GA 8115 8113 8112; GX 8112 23533 23548; GX 8124 8112 23495; GX 23527 23495 23491; GX 1954 23491 23490;
GX 1952 23491 23494; GX 23546 23548 8111; GA 8111 8137 8081; GA 8109 8110 8108; GX 8108 8116 8107; GA 8107 8139 8084;
GX 8108 23545 23499; GX 8114 8108 8106; GA 8116 8106 8105; GX 8105 8113 8103; GX 8105 8123 23530; GX 1958 23530 23538;
GX 23538 23499 8104; GA 8104 8135 8085; GA 8111 8103 8102; GX 8102 8115 8101; GA 8101 8136 8082; GA 8107 1959 8093;
GX 8081 8093 23542; GX 8084 23542 23505; GA 8101 8140 8091; GA 8111 8130 8090; GX 8090 8093 23543; GX 8102 8126 23497;
GX 8102 23548 23492; GX 23547 23492 8098; GA 8098 8143 8083; GA 8098 8128 8092; GX 23538 23497 23489; GX 23489 23490 8096;
GA 8096 8129 8088; GA 8096 8144 8079; GX 23520 23489 23496; GX 8088 8091 23535; GX 23530 23551 8097; GA 8097 8138 8086;
GA 8097 8134 8095; GX 8092 8095 23536; GI 23536 23507; GX 23543 23507 23518; GX 8108 8125 23498; GX 23498 8122 23493;
GX 23493 23494 8099; GA 8099 8142 8080; GA 8099 8131 8089; GX 8089 8092 23512; GX 8089 8095 23541; GX 8088 23541 23514;
GX 8079 8080 23524; GX 8085 23524 23529; GX 8086 23529 23534; GX 23535 23534 23513; GX 23493 23496 8100; GA 8100 8132 8087;
GX 8083 8087 23537; GX 23541 23537 23509; GX 23535 23537 23549; GX 8090 23549 23515; GX 8082 23524 23544; GX 23544 23515 8147;
GX 8083 23544 23517; GX 23512 23513 29718; GX 29697 29718 15822; GX 29711 29718 15830; GX 15821 29718 15666; GI 15822 15587;
GX 15644 15587 15653; GX 29711 15653 29586; GX 29586 680 1840; GX 15822 29710 15639; GX 15639 15640 29594; GX 29594 688 1832;
GX 15862 15830 15638; GX 23176 15638 29595; GX 29595 703 1831; GI 15830 15629; GX 15629 29705 15636; GX 15629 29707 15631;
GX 15629 29708 15628; GX 23517 23518 23516; GX 23176 23516 15860; GX 15860 15822 15680; GX 22836 15680 29571; GX 29571 679 1855;
GX 15860 15829 15665; GX 23584 15665 29579; GX 29579 687 1847; GX 23516 15650 29587; GX 29587 695 1839; GX 15637 15860 15635;
GX 15635 15636 29596; GX 29596 702 1830; GX 15587 23516 15584; GX 15584 15585 15902; GA 8100 8141 8078; GX 8078 8080 23508;
GX 23508 23509 23552; GX 23552 23542 8145; GI 8147 29712; GX 29705 29712 15858].
(** aes128_with_ks.txt:14004-14253 *)
Definition aes_enc_file_g56 : list gate := [
GX 15902 15858 29572; GX 29572 678 1854; GX 15664 15858 15662; GX 15662 15663 29580; GX 29580 686 1846; GX 1840 1846 7163;
GX 15859 15858 15633; GX 29706 15633 29597; GX 29597 701 1829; GX 1830 1829 24628; GX 15821 29712 15588; GX 15588 15589 15901;
GX 15901 15861 29588; GX 29588 694 1838; GX 1832 1838 7093; GX 23507 23529 23506; GX 23505 23506 23504; GI 23504 23553;
GX 23553 23549 29713; GX 29706 29713 15856; GX 15856 29712 15678; GX 15678 15679 15677; GI 15677 29573; GX 29573 677 1853;
GX 1854 1853 24424; GX 15861 15856 15661; GX 29692 15661 29581; GX 29581 685 1845; GX 1840 1845 7161; GX 1846 1845 24492;
GX 15649 29713 15647; GX 15647 15648 29589; GX 29589 693 1837; GX 1832 1837 7091; GX 1838 1837 24560; GX 15632 15856 15630;
GX 15630 15631 29598; GX 29598 700 1828; GX 1828 1829 24591; GX 1830 1828 24607; GX 15587 29713 15590; GX 15590 15591 15900;
GX 1982 1981 23336; GX 8352 23336 8348; GX 1976 1981 8351; GX 1982 8350 8346; GA 8346 8350 8333; GX 1982 1980 23315;
GX 23315 8352 8344; GX 1983 8344 8343; GX 1978 1976 23316; GX 23316 8354 8339; GX 23316 23324 8347; GX 23318 23316 23284;
GX 23315 23284 8342; GA 8351 8342 8329; GX 8329 8335 23327; GA 8354 8339 8330; GX 1978 23327 23342; GX 23336 8347 8345;
GA 8345 8343 8336; GX 8330 8336 23328; GX 23328 23327 23306; GX 23316 23306 8325; GX 1976 23328 23343; GX 1981 23315 23317;
GX 1977 23317 8341; GX 23324 23317 8340; GX 1978 23317 8338; GA 8352 8341 8331; GX 8331 23317 23319; GX 8330 8331 23298;
GX 23298 23299 23350; GA 8353 8338 8334; GA 8347 8340 8332; GX 8329 8332 23321; GX 8330 23321 23341; GX 8333 23341 23297;
GX 1982 23297 8320; GX 8334 23316 23322; GX 23322 23321 23307; GX 23350 23322 23347; GX 23319 23307 8326; GX 8333 23347 8327;
GA 8104 8133 8094; GX 8094 23534 23539; GX 8091 23539 23550; GX 23539 23514 8146; GI 8146 29717; GX 29710 29717 15849;
GX 29717 29696 15667; GX 15666 15667 29578; GX 29578 672 1848; GX 1848 1854 7233; GX 1848 1853 7231; GX 15853 15849 15654;
GX 29696 15654 29585; GX 29585 681 1841; GX 1847 1841 24480; GX 15644 29717 15641; GX 15641 15642 29593; GX 29593 689 1833;
GX 15849 15821 15623; GX 29697 15623 29602; GX 29602 696 1824; GX 1824 1830 7023; GX 1824 1829 7021; GX 23536 23550 29715;
GX 29708 29715 15852; GX 15632 15852 15656; GX 15656 15657 29583; GX 29583 683 1843; GX 1843 1840 7162; GX 1843 1841 24474;
GX 1845 1843 7164; GX 7162 24492 7158; GX 15853 15852 15625; GX 29709 15625 29600; GX 29600 698 1826; GX 1826 1824 24608;
GX 15596 29715 15599; GX 15599 15600 15897; GX 15897 15855 29591; GX 29591 691 1835; GX 1835 1833 24542; GX 1835 1832 7092;
GX 7092 24560 7088; GX 23543 23550 29714; GX 29707 29714 15854; GX 15900 15854 29574; GX 29574 676 1852; GX 1854 1852 24403;
GX 1853 24403 24405; GX 1852 1853 24387; GX 15649 15854 15659; GX 15659 15660 29582; GX 29582 684 1844; GX 1846 1844 24471;
GX 24471 7162 7154; GX 1845 24471 24473; GX 24480 24473 7150; GX 1847 7154 7153; GX 1841 24473 7151; GA 7162 7151 7141;
GX 7141 24473 24475; GA 7158 7154 7147; GX 7147 24474 24479; GX 24479 24475 24485; GX 15855 15854 15627; GX 15627 15628 15626;
GI 15626 29599; GX 29599 699 1827; GX 1829 1827 7024; GX 1827 1824 7022; GX 7022 24628 7018; GX 24607 7022 7014;
GA 7018 7014 7007; GX 15822 29714 15597; GX 15597 15598 15898; GX 15898 15852 29575; GX 29575 675 1851; GX 1851 1848 7232;
GX 7232 24424 7228; GX 1853 1851 7234; GX 24403 7232 7224; GX 1855 7224 7223; GA 7228 7224 7217; GX 15596 29714 15593;
GX 15593 15594 15899; GX 15899 15857 29590; GX 29590 692 1836; GX 1836 1837 24523; GX 1838 1836 24539; GX 1837 24539 24541;
GX 1833 24541 7081; GA 7092 7081 7071; GX 1844 1845 24455; GX 1962 1960 23452; GX 8194 23452 23458; GX 23452 8214 8199;
GA 8214 8199 8190; GX 23454 23452 23420; GX 23452 23460 8207; GX 23472 8207 8205; GA 8205 8203 8196; GX 8190 8196 23464;
GX 1960 23464 23479; GA 8207 8200 8192; GX 23451 23420 8202; GA 8211 8202 8189; GX 8189 8192 23457; GX 8189 8195 23463;
GX 1962 23463 23478; GX 23458 23457 23443; GX 8190 23457 23477; GX 8193 23477 23433; GX 1966 23433 8180; GX 23464 23463 23442;
GX 23452 23442 8185; GX 7071 24541 24543; GX 1839 1833 24548; GX 24548 24541 7080; GA 8348 8344 8337; GX 8337 23318 23323;
GX 23323 23319 23329; GX 23343 23329 8328; GA 8328 8327 8324; GX 8324 8326 8323; GX 8324 23342 23296; GX 23329 23296 8319;
GA 8319 8320 8318; GX 8318 23341 23295; GX 8318 8326 8317; GA 8317 1983 8303; GX 8324 8318 8316; GA 8326 8316 8315;
GX 8315 8333 23326; GX 1982 23326 23334; GX 23334 23295 8314; GX 23326 23347 8307; GX 8315 8323 8313; GA 8314 8345 8295;
GA 8317 8349 8294; GA 8307 8344 8305; GX 8318 8335 23294; GX 23294 8332 23289; GA 8325 8323 8322; GX 8322 23329 23344;
GX 23342 23344 8321; GA 8321 8340 8300; GA 8321 8313 8312; GX 8312 8336 23293; GX 23334 23293 23285; GX 8334 8322 23291;
GX 8300 8303 23339; GX 23323 23291 23287; GX 1976 23287 23290; GX 23289 23290 8309; GA 8309 8341 8299; GX 8299 8305 23337;
GA 8321 8347 8291; GX 8291 8303 23338; GX 8294 23338 23301; GX 8312 23344 23288; GX 23343 23288 8308; GA 8308 8353 8293;
GA 8308 8338 8302; GX 8299 8302 23308; GX 8302 8305 23332; GX 1978 23287 23286].
(** aes128_with_ks.txt:14254-14503 *)
Definition aes_enc_file_g57 : list gate := [
GX 23285 23286 8306; GA 8306 8339 8298; GX 8298 23337 23310; GX 23316 23285 23292; GX 23289 23292 8310; GA 8310 8351 8288;
GA 8310 8342 8297; GX 8293 8297 23333; GX 23337 23333 23305; GI 23332 23303; GX 8312 8325 8311; GA 8311 8350 8301;
GA 8311 8346 8292; GX 8298 8301 23331; GX 23331 23333 23345; GX 8300 23345 23311; GX 23339 23303 23314; GA 8314 8343 8304;
GA 8306 8354 8289; GA 8307 8348 8296; GX 1974 8280 8276; GA 8276 8280 8263; GX 8263 23409 23365; GX 1974 23365 8250;
GX 23404 8277 8275; GA 8275 8273 8266; GX 8260 8266 23396; GX 1968 23396 23411; GX 23411 23397 8258; GA 8309 8352 8290;
GX 8289 8290 23320; GX 8295 23320 23325; GX 8296 23325 23330; GX 23331 23330 23309; GX 23308 23309 29669; GX 29669 29690 15824;
GX 29669 29676 15831; GX 15874 15824 15735; GX 23652 15735 29539; GX 29539 711 1887; GX 15874 15831 15724; GI 15831 15717;
GI 15824 15570; GX 15824 29682 15700; GX 15700 15701 29562; GX 29562 720 1864; GX 29669 15681 29570; GX 29570 728 1856;
GX 15824 29686 15580; GX 15570 29685 15573; GX 15570 23244 15567; GX 8288 8290 23304; GX 23304 23305 23348; GX 23348 23338 8355;
GI 8355 29667; GX 29667 29674 15867; GX 29675 29667 15728; GX 15727 15728 29545; GX 29545 705 1881; GX 1887 1881 24140;
GX 15867 15863 15713; GX 15867 29688 15706; GX 15706 15707 29560; GX 29560 722 1866; GX 1866 1864 24268; GX 15867 15866 15683;
GX 29681 15683 29568; GX 29568 730 1858; GX 23303 23325 23302; GX 23301 23302 23300; GI 23300 23349; GX 8304 23330 23335;
GX 23335 23310 8356; GI 8356 29668; GX 29668 29675 15865; GX 29689 29668 15726; GX 15725 15726 29546; GX 29546 704 1880;
GX 29668 15713 29553; GX 29553 713 1873; GI 15865 15705; GX 15705 15570 15712; GX 29683 15712 29554; GX 29554 712 1872;
GX 15705 29689 15702; GX 15702 15703 29561; GX 29561 721 1865; GX 15865 15864 15682; GX 29682 15682 29569; GX 29569 729 1857;
GX 8292 23320 23340; GX 8293 23340 23313; GX 8301 23335 23346; GX 23339 23346 29665; GX 29665 29672 15871; GX 15905 15871 29558;
GX 29558 724 1868; GX 15717 29665 15719; GI 15871 15694; GX 15694 15866 15715; GX 15694 15870 15692; GX 15692 15693 29566;
GX 29566 732 1860; GX 29673 29665 15581; GX 15580 15581 15904; GX 15904 15866 29543; GX 29543 707 1883; GX 1883 1880 7512;
GX 1883 1881 24134; GX 23332 23346 29666; GX 29666 29673 15869; GX 15903 15869 29559; GX 29559 723 1867; GX 1867 1865 24270;
GX 1867 1864 7372; GX 24270 24268 24236; GX 24270 1866 24235; GX 15704 29666 15730; GX 15729 15730 29544; GX 29544 706 1882;
GX 1882 1880 24132; GX 24132 24140 7507; GX 1882 24140 7510; GX 24134 24132 24100; GX 15717 29666 15716; GX 15715 15716 29551;
GX 29551 715 1875; GX 1875 1873 24202; GX 1875 1872 7442; GX 15869 15864 15714; GX 29667 15714 29552; GX 29552 714 1874;
GX 1874 1872 24200; GX 15869 15868 15685; GX 15685 15686 15684; GI 15684 29567; GX 29567 731 1859; GX 1859 1856 7302;
GX 23340 23311 8357; GI 8357 29663; GX 29663 29670 15875; GX 15907 15875 29556; GX 29556 726 1870; GX 1870 1868 24267;
GX 1864 1870 7373; GX 24267 24236 7362; GX 15578 29663 15734; GX 15733 15734 15732; GI 15732 29541; GX 29541 709 1885;
GX 1885 1883 7514; GX 1880 1885 7511; GX 24132 7514 7499; GX 15717 29663 15722; GX 15875 15870 15720; GI 15875 15698;
GX 15698 15874 15696; GX 15696 15697 29564; GX 29564 734 1862; GX 1862 1860 24335; GX 1856 1862 7303; GX 23313 23314 23312;
GX 23312 23652 15876; GX 23312 15724 29547; GX 29547 719 1879; GX 1879 1873 24208; GX 1874 24208 7440; GX 24200 24208 7437;
GI 15876 15723; GX 15723 15872 15721; GX 15721 15722 29548; GX 29548 718 1878; GX 1878 7440 7436; GX 1872 1878 7443;
GA 7436 7440 7423; GX 15876 15823 15711; GX 23244 15711 29555; GX 29555 727 1871; GX 1871 1865 24276; GX 1871 24235 7369;
GA 7369 1871 7355; GX 15876 15832 15699; GX 22904 15699 29563; GX 29563 735 1863; GX 15569 23312 15568; GX 15567 15568 15908;
GX 15908 15872 29540; GX 29540 710 1886; GX 1886 7510 7506; GX 1880 1886 7513; GX 1886 1885 24152; GX 7512 24152 7508;
GX 24152 7507 7505; GX 1866 24276 7370; GX 1870 7370 7366; GA 7366 7370 7353; GX 24268 24276 7367; GX 24267 7372 7364;
GX 1871 7364 7363; GX 24202 24200 24168; GX 23349 23345 29664; GX 29664 29671 15873; GX 29664 15720 29549; GX 29549 717 1877;
GX 1872 1877 7441; GX 1878 1877 24220; GX 7442 24220 7438; GX 24220 7437 7435; GX 1877 1875 7444; GX 24200 7444 7429;
GA 7444 7429 7420; GI 15873 15710; GX 15710 15868 15718; GX 15718 15719 29550; GX 29550 716 1876; GX 1878 1876 24199;
GX 24199 7442 7434; GX 1879 7434 7433; GX 1877 24199 24201; GX 1873 24201 7431; GX 24208 24201 7430; GX 1874 24201 7428;
GA 7442 7431 7421; GX 7421 24201 24203; GA 7443 7428 7424; GX 7424 24200 24206; GA 7437 7430 7422; GA 7435 7433 7426;
GX 7420 7426 24212; GX 1872 24212 24227; GX 15710 29685 15708; GX 15708 15709 29557; GX 29557 725 1869; GX 1869 24267 24269;
GX 1864 1869 7371; GX 1865 24269 7361; GX 1866 24269 7358; GX 24276 24269 7360; GA 7367 7360 7352; GA 7373 7358 7354;
GX 7354 24268 24274; GA 7371 7362 7349; GX 7349 7352 24273; GX 7349 7355 24279; GX 24274 24273 24259; GA 7372 7361 7351;
GX 7351 24269 24271; GX 24271 24259 7346; GX 1868 1869 24251; GX 15873 15872 15695].
(** aes128_with_ks.txt:14504-14753 *)
Definition aes_enc_file_g58 : list gate := [
GX 29678 15695 29565; GX 29565 733 1861; GX 1860 1861 24319; GX 1862 1861 24356; GX 1861 1859 7304; GX 1856 1861 7301;
GX 15575 29664 15574; GX 15573 15574 15906; GX 15906 15868 29542; GX 29542 708 1884; GX 1884 1885 24115; GX 1886 1884 24131;
GX 1885 24131 24133; GX 1881 24133 7501; GX 24140 24133 7500; GX 1882 24133 7498; GX 24131 7512 7504; GX 1887 7504 7503;
GA 7507 7500 7492; GA 7508 7504 7497; GX 7497 24134 24139; GA 7505 7503 7496; GX 7420 7421 24182; GX 1870 1869 24288;
GX 7372 24288 7368; GX 24288 7367 7365; GA 7368 7364 7357; GX 7357 24270 24275; GX 24275 24271 24281; GA 7365 7363 7356;
GX 1869 1867 7374; GX 24268 7374 7359; GA 7374 7359 7350; GX 7350 7356 24280; GX 24280 24279 24258; GX 24268 24258 7345;
GX 7350 7351 24250; GX 7350 24273 24293; GX 1866 24279 24294; GX 1864 24280 24295; GX 24295 24281 7348; GX 1876 1877 24183;
GX 24182 24183 24234; GX 24234 24206 24231; GX 7423 24231 7417; GX 24131 24100 7502; GA 7511 7502 7489; GX 7489 7492 24137;
GX 24134 1882 24099; GX 1887 24099 7509; GA 7509 1887 7495; GX 7489 7495 24143; GX 1882 24143 24158; GA 7513 7498 7494;
GX 7494 24132 24138; GX 24138 24137 24123; GA 7506 7510 7493; GA 7512 7501 7491; GX 7491 24133 24135; GX 24135 24123 7486;
GX 24139 24135 24145; GA 7514 7499 7490; GX 7490 24137 24157; GX 7490 7491 24114; GX 24114 24115 24166; GX 7493 24157 24113;
GX 1886 24113 7480; GX 7490 7496 24144; GX 24144 24143 24122; GX 1880 24144 24159; GX 24132 24122 7485; GX 24159 24145 7488;
GX 24166 24138 24163; GX 7493 24163 7487; GA 7488 7487 7484; GX 7484 24158 24112; GX 24145 24112 7479; GX 7484 7486 7483;
GA 7479 7480 7478; GX 7484 7478 7476; GX 7478 7486 7477; GX 7478 7495 24110; GX 24110 7492 24105; GX 7478 24157 24111;
GA 7486 7476 7475; GX 7475 7493 24142; GX 24142 24163 7467; GX 7475 7483 7473; GX 1886 24142 24150; GX 24150 24111 7474;
GA 7474 7503 7464; GA 7467 7508 7456; GA 7485 7483 7482; GX 7482 24145 24160; GX 24158 24160 7481; GA 7481 7500 7460;
GA 7481 7507 7451; GX 7494 7482 24107; GX 24139 24107 24103; GX 1880 24103 24106; GX 24105 24106 7469; GA 7469 7512 7450;
GX 1882 24103 24102; GA 7481 7473 7472; GX 7472 7485 7471; GX 7472 7496 24109; GX 24150 24109 24101; GX 24132 24101 24108;
GA 7471 7506 7452; GX 7472 24160 24104; GX 24159 24104 7468; GX 24101 24102 7466; GA 7466 7514 7449; GX 7449 7450 24136;
GX 7452 24136 24156; GX 24105 24108 7470; GA 7470 7502 7457; GA 7467 7504 7465; GA 7477 1887 7463; GX 7451 7463 24154;
GX 7460 7463 24155; GA 7468 7498 7462; GX 7462 7465 24148; GI 24148 24119; GX 24155 24119 24130; GA 7471 7510 7461;
GA 7469 7501 7459; GX 7459 7465 24153; GX 7459 7462 24124; GA 7466 7499 7458; GX 7458 7461 24147; GX 7458 24153 24126;
GA 7474 7505 7455; GX 7455 24136 24141; GX 24119 24141 24118; GX 7456 24141 24146; GX 7464 24146 24151; GX 24151 24126 7516;
GX 7461 24151 24162; GX 24155 24162 29397; GX 24148 24162 29398; GX 24147 24146 24125; GX 24124 24125 29401; GA 7477 7509 7454;
GX 7454 24154 24117; GX 24117 24118 24116; GI 24116 24165; GA 7468 7513 7453; GX 7453 7457 24149; GX 24153 24149 24121;
GX 24147 24149 24161; GX 24165 24161 29396; GX 7460 24161 24127; GX 7453 24156 24129; GX 24129 24130 24128; GX 24156 24127 7517;
GA 7470 7511 7448; GX 7448 7450 24120; GX 24120 24121 24164; GX 24164 24154 7515; GI 7515 29399; GI 7517 29395;
GI 7516 29400; GX 1837 1835 7094; GX 24539 7092 7084; GA 7088 7084 7077; GX 1839 7084 7083; GX 7077 24542 24547;
GX 24547 24543 24553; GX 7302 24356 7298; GX 1858 1856 24336; GX 24336 7304 7289; GA 7304 7289 7280; GX 1861 24335 24337;
GX 1858 24337 7288; GA 7303 7288 7284; GX 7284 24336 24342; GX 1857 24337 7291; GA 7302 7291 7281; GX 7280 7281 24318;
GX 24318 24319 24370; GX 24370 24342 24367; GX 7281 24337 24339; GX 1859 1857 24338; GX 24338 1858 24303; GX 1863 24303 7299;
GA 7299 1863 7285; GX 24338 24336 24304; GX 24335 24304 7292; GA 7301 7292 7279; GX 7279 7285 24347; GX 1863 1857 24344;
GX 1858 24344 7300; GX 24336 24344 7297; GX 1862 7300 7296; GA 7296 7300 7283; GX 24356 7297 7295; GX 24344 24337 7290;
GA 7297 7290 7282; GX 7279 7282 24341; GX 24342 24341 24327; GX 7280 24341 24361; GX 7283 24361 24317; GX 1862 24317 7270;
GX 24339 24327 7276; GX 7283 24367 7277; GX 1858 24347 24362; GX 24335 7302 7294; GA 7298 7294 7287; GX 1863 7294 7293;
GA 7295 7293 7286; GX 7287 24338 24343; GX 7280 7286 24348; GX 24348 24347 24326; GX 24336 24326 7275; GX 1856 24348 24363;
GX 24343 24339 24349; GX 24363 24349 7278; GA 7278 7277 7274; GX 7274 7276 7273; GX 7274 24362 24316; GX 24349 24316 7269;
GA 7269 7270 7268; GX 7268 24361 24315; GX 7268 7285 24314; GX 24314 7282 24309; GA 7275 7273 7272; GX 7272 24349 24364;
GX 7284 7272 24311; GX 24343 24311 24307; GX 1858 24307 24306; GX 1856 24307 24310; GX 24309 24310 7259; GA 7259 7291 7249;
GA 7259 7302 7240; GX 7268 7276 7267; GA 7267 1863 7253; GA 7267 7299 7244; GX 7274 7268 7266; GA 7276 7266 7265;
GX 24362 24364 7271; GA 7271 7297 7241; GX 7241 7253 24358; GX 7244 24358 24321; GA 7271 7290 7250; GX 7250 7253 24359;
GX 7265 7273 7263; GA 7271 7263 7262; GX 7262 24364 24308; GX 7262 7286 24313].
(** aes128_with_ks.txt:14754-15003 *)
Definition aes_enc_file_g59 : list gate := [
GX 24363 24308 7258; GA 7258 7288 7252; GX 7249 7252 24328; GA 7258 7303 7243; GX 7262 7275 7261; GA 7261 7296 7242;
GA 7261 7300 7251; GX 7265 7283 24346; GX 1862 24346 24354; GX 24354 24315 7264; GA 7264 7295 7245; GX 24354 24313 24305;
GA 7264 7293 7254; GX 24305 24306 7256; GA 7256 7304 7239; GX 7239 7240 24340; GX 7242 24340 24360; GX 7243 24360 24333;
GX 24336 24305 24312; GX 24309 24312 7260; GA 7260 7301 7238; GX 7238 7240 24324; GA 7256 7289 7248; GX 7248 7251 24351;
GA 7260 7292 7247; GX 24346 24367 7257; GA 7257 7298 7246; GA 7257 7294 7255; GX 7249 7255 24357; GX 7248 24357 24330;
GX 7245 24340 24345; GX 7246 24345 24350; GX 7254 24350 24355; GX 7251 24355 24366; GX 24355 24330 7306; GI 7306 29449;
GX 24351 24350 24329; GX 24328 24329 29450; GX 24359 24366 29446; GX 7252 7255 24352; GI 24352 24323; GX 24323 24345 24322;
GX 24359 24323 24334; GX 24333 24334 24332; GX 24321 24322 24320; GI 24320 24369; GX 24352 24366 29447; GX 7243 7247 24353;
GX 24351 24353 24365; GX 7250 24365 24331; GX 24360 24331 7307; GX 24357 24353 24325; GX 24324 24325 24368; GI 7307 29444;
GX 24369 24365 29445; GX 24368 24358 7305; GI 7305 29448; GX 23396 23395 23374; GX 23384 23374 8255; GX 8260 8261 23366;
GX 23366 23367 23418; GX 23418 23390 23415; GX 8263 23415 8257; GA 8258 8257 8254; GX 8254 23410 23364; GX 23397 23364 8249;
GX 8254 8256 8253; GA 8249 8250 8248; GX 8254 8248 8246; GA 8256 8246 8245; GX 8245 8263 23394; GX 8248 8256 8247;
GA 8247 1975 8233; GA 8247 8279 8224; GX 8245 8253 8243; GX 8248 8265 23362; GX 1974 23394 23402; GX 23394 23415 8237;
GA 8237 8274 8235; GA 8237 8278 8226; GA 8255 8253 8252; GX 8264 8252 23359; GX 23391 23359 23355; GX 8252 23397 23412;
GX 1970 23355 23354; GX 23410 23412 8251; GA 8251 8270 8230; GA 8251 8277 8221; GA 8251 8243 8242; GX 8242 8266 23361;
GX 8221 8233 23406; GX 23402 23361 23353; GX 23384 23353 23360; GX 23353 23354 8236; GA 8236 8269 8228; GA 8236 8284 8219;
GX 8230 8233 23407; GX 8242 8255 8241; GA 8241 8276 8222; GA 8241 8280 8231; GX 8228 8231 23399; GX 8224 23406 23369;
GX 8242 23412 23356; GX 23411 23356 8238; GA 8238 8283 8223; GA 8238 8268 8232; GX 8232 8235 23400; GI 23400 23371;
GX 23407 23371 23382; GX 8248 23409 23363; GX 23402 23363 8244; GA 8244 8275 8225; GA 8244 8273 8234; GX 23362 8262 23357;
GX 23357 23360 8240; GA 8240 8272 8227; GA 8240 8281 8218; GX 8223 8227 23401; GX 23399 23401 23413; GX 8230 23413 23379;
GX 1968 23355 23358; GX 23357 23358 8239; GA 8239 8282 8220; GX 8218 8220 23372; GA 8239 8271 8229; GX 8229 8232 23376;
GX 8219 8220 23388; GX 8229 8235 23405; GX 23405 23401 23373; GX 8228 23405 23378; GX 23372 23373 23416; GX 8222 23388 23408;
GX 8223 23408 23381; GX 23381 23382 23380; GX 23040 23380 15890; GX 23380 15818 29507; GX 29507 743 1919; GX 15890 15834 15752;
GX 23720 15752 29531; GX 29531 767 1895; GX 15890 15886 15617; GX 23408 23379 8287; GI 8287 29642; GX 29635 29642 15889;
GX 15889 15884 15801; GX 29636 15801 29517; GX 29517 749 1909; GI 15889 15751; GX 15751 15888 15749; GX 15749 15750 29532;
GX 29532 766 1894; GX 15826 29642 15552; GX 15552 15553 15914; GX 15914 15886 29508; GX 29508 742 1918; GX 23416 23406 8285;
GI 8285 29646; GX 29639 29646 15881; GX 15881 15877 15764; GX 29640 15764 29521; GX 29521 745 1905; GX 15881 29660 15758;
GI 29646 15690; GX 29653 15690 15756; GX 15881 15880 15740; GX 29653 15740 29536; GX 29536 762 1890; GX 29659 15690 15689;
GX 15688 15689 29512; GX 29512 738 1914; GX 8225 23388 23393; GX 8226 23393 23398; GX 23399 23398 23377; GX 23376 23377 29648;
GX 29648 29655 15825; GX 29641 29648 15833; GI 15833 15619; GX 15619 29637 15785; GX 15619 29638 15767; GX 15890 15825 15762;
GX 22972 15762 29523; GX 29523 759 1903; GX 15877 15825 15736; GX 29641 15736 29538; GX 29538 760 1888; GX 15825 29640 15651;
GX 15651 15652 29514; GX 29514 736 1912; GX 1912 1918 7793; GX 15888 15833 15634; GX 23040 15634 29515; GX 29515 751 1911;
GX 1911 1905 23936; GX 15619 29635 15618; GX 15617 15618 15616; GI 15616 29516; GX 29516 750 1910; GX 1914 1912 23860;
GX 15825 29659 15566; GI 15566 15564; GX 15825 29658 15560; GX 15825 23380 15554; GX 15554 15555 15913; GX 15913 15889 29524;
GX 29524 758 1902; GX 1910 1909 23948; GX 1890 1888 24064; GX 23371 23393 23370; GX 23369 23370 23368; GI 23368 23417;
GX 23417 23413 29643; GX 29636 29643 15887; GX 15887 15882 15784; GX 15784 15785 15783; GI 15783 29518; GX 29518 748 1908;
GX 1908 1909 23911; GX 15887 29642 15760; GX 15760 15761 29525; GX 29525 757 1901; GX 15887 15886 15748; GX 29650 15748 29533;
GX 29533 765 1893; GX 1888 1893 7581; GX 29635 29643 15739; GX 15738 15739 29509; GX 29509 741 1917; GX 1918 1917 23880;
GX 1912 1917 7791; GX 29650 29643 15561; GX 15560 15561 15911; GX 1910 1908 23927; GX 1909 23927 23929; GX 1905 23929 7711;
GX 23936 23929 7710; GX 1894 1893 24084; GX 1902 1901 24016; GX 8234 23398 23403; GX 8231 23403 23414; GX 23407 23414 29644;
GX 23400 23414 29645; GX 29638 29645 15883; GX 29637 29644 15885; GX 15911 15885 29526; GX 29526 756 1900; GX 1902 1900 23995;
GI 15885 15747; GX 15747 15880 15766; GX 15766 15767 29519; GX 29519 747 1907].
(** aes128_with_ks.txt:15004-15253 *)
Definition aes_enc_file_g60 : list gate := [
GX 15883 15878 15765; GX 29639 15765 29520; GX 29520 746 1906; GX 29652 29645 15759; GX 15758 15759 29528; GX 29528 754 1898;
GX 15747 15884 15745; GX 15745 15746 29534; GX 29534 764 1892; GX 1894 1892 24063; GX 1893 24063 24065; GX 1890 24065 7568;
GI 15883 15744; GX 15744 15882 15741; GX 15741 15742 29535; GX 29535 763 1891; GX 1893 1891 7584; GX 24064 7584 7569;
GA 7584 7569 7560; GX 23403 23378 8286; GI 8286 29647; GX 29640 29647 15879; GI 15879 15757; GX 15757 15559 15763;
GX 29655 15763 29522; GX 29522 744 1904; GX 1904 1909 7721; GX 15757 29661 15755; GX 15755 15756 29529; GX 29529 753 1897;
GX 29648 29647 15754; GX 15753 15754 29530; GX 29530 752 1896; GX 1896 1902 7653; GX 15879 15878 15737; GX 29654 15737 29537;
GX 29537 761 1889; GX 1891 1889 24066; GX 24066 1890 24031; GX 1889 24065 7571; GX 29660 29647 15672; GX 15671 15672 15670;
GI 15670 29513; GX 29513 737 1913; GX 24066 24064 24032; GX 24063 24032 7572; GX 1895 1889 24072; GX 1890 24072 7580;
GX 24072 24065 7570; GX 24064 24072 7577; GA 7577 7570 7562; GX 24084 7577 7575; GX 1903 1897 24004; GX 1895 24031 7579;
GA 7579 1895 7565; GI 29644 15558; GX 29651 15558 15565; GX 15564 15565 15909; GX 15909 15883 29527; GX 29527 755 1899;
GX 29658 29645 15563; GX 15562 15563 15910; GX 15910 15880 29511; GX 29511 739 1915; GX 29657 15558 15557; GX 15556 15557 15912;
GX 15912 15882 29510; GX 29510 740 1916; GX 1896 1901 7651; GX 1906 23929 7708; GX 1919 1913 23868; GX 1914 23868 7790;
GX 1892 1893 24047; GX 1899 1896 7652; GX 7652 24016 7648; GX 1906 1904 23928; GX 1891 1888 7582; GA 7582 7571 7561;
GX 7560 7561 24046; GX 24063 7582 7574; GX 1895 7574 7573; GA 7575 7573 7566; GX 7560 7566 24076; GX 1888 24076 24091;
GX 24046 24047 24098; GX 7561 24065 24067; GX 1904 1910 7723; GX 1906 23936 7720; GX 1910 7720 7716; GX 23928 23936 7717;
GX 1909 1907 7724; GX 23928 7724 7709; GA 7724 7709 7700; GX 1907 1905 23930; GX 23930 23928 23896; GX 23948 7717 7715;
GX 1894 7580 7576; GA 7576 7580 7563; GX 1898 1896 23996; GX 1901 23995 23997; GX 1898 23997 7638; GA 7653 7638 7634;
GX 7634 23996 24002; GX 24004 23997 7640; GX 1899 1897 23998; GX 23998 23996 23964; GX 23998 1898 23963; GX 1903 23963 7649;
GX 1901 1899 7654; GX 23996 7654 7639; GA 7654 7639 7630; GX 1898 24004 7650; GX 1902 7650 7646; GA 7646 7650 7633;
GX 23996 24004 7647; GX 24016 7647 7645; GX 23995 7652 7644; GA 7648 7644 7637; GX 7637 23998 24003; GX 1903 7644 7643;
GA 7645 7643 7636; GX 1900 1901 23979; GX 23930 1906 23895; GX 1911 23895 7719; GA 7719 1911 7705; GA 7716 7720 7703;
GA 7717 7710 7702; GA 7723 7708 7704; GX 7704 23928 23934; GX 1917 1915 7794; GX 23927 23896 7712; GX 23860 7794 7779;
GA 7794 7779 7770; GA 7581 7572 7559; GX 7559 7565 24075; GX 1890 24075 24090; GX 24076 24075 24054; GX 23860 23868 7787;
GX 23880 7787 7785; GX 1916 1917 23843; GA 7649 1903 7635; GX 23995 23964 7642; GA 7651 7642 7629; GX 7629 7635 24007;
GX 1898 24007 24022; GA 7647 7640 7632; GX 7629 7632 24001; GX 7630 24001 24021; GX 7633 24021 23977; GX 24002 24001 23987;
GX 1902 23977 7620; GX 1918 7790 7786; GA 7786 7790 7773; GX 7559 7562 24069; GX 7560 24069 24089; GX 7563 24089 24045;
GX 1907 1904 7722; GX 7722 23948 7718; GX 23927 7722 7714; GA 7718 7714 7707; GX 1911 7714 7713; GA 7715 7713 7706;
GX 7700 7706 23940; GX 1904 23940 23955; GX 7707 23930 23935; GA 7722 7711 7701; GX 7701 23929 23931; GX 23935 23931 23941;
GX 7700 7701 23910; GX 23910 23911 23962; GX 23962 23934 23959; GX 7703 23959 7697; GX 1918 1916 23859; GX 1917 23859 23861;
GX 23868 23861 7780; GA 7787 7780 7772; GX 23955 23941 7698; GA 7698 7697 7694; GX 24064 24054 7555; GX 1897 23997 7641;
GA 7652 7641 7631; GX 7631 23997 23999; GX 23999 23987 7626; GX 24003 23999 24009; GX 7630 7631 23978; GX 23978 23979 24030;
GX 24030 24002 24027; GX 7630 7636 24008; GX 1896 24008 24023; GX 24023 24009 7628; GX 24008 24007 23986; GX 23996 23986 7625;
GX 1894 24045 7550; GX 7633 24027 7627; GA 7628 7627 7624; GX 7624 7626 7623; GA 7625 7623 7622; GX 7624 24022 23976;
GX 24009 23976 7619; GX 7634 7622 23971; GX 24003 23971 23967; GX 1898 23967 23966; GX 1896 23967 23970; GX 7622 24009 24024;
GX 24022 24024 7621; GA 7621 7640 7600; GA 7621 7647 7591; GA 7619 7620 7618; GX 7618 7626 7617; GX 7624 7618 7616;
GX 7618 24021 23975; GA 7626 7616 7615; GX 7615 7623 7613; GA 7621 7613 7612; GX 7612 24024 23968; GX 24023 23968 7608;
GX 7612 7636 23973; GA 7608 7653 7593; GA 7608 7638 7602; GX 7612 7625 7611; GA 7611 7650 7601; GA 7611 7646 7592;
GX 7615 7633 24006; GX 24006 24027 7607; GX 1902 24006 24014; GX 24014 23975 7614; GA 7614 7643 7604; GX 24014 23973 23965;
GX 23965 23966 7606; GA 7606 7639 7598; GA 7606 7654 7589; GX 23996 23965 23972; GX 7598 7601 24011; GA 7607 7644 7605;
GX 7602 7605 24012; GI 24012 23983; GA 7607 7648 7596; GA 7614 7645 7595; GA 7617 7649 7594; GA 7617 1903 7603;
GX 7591 7603 24018; GX 7594 24018 23981; GX 7600 7603 24019; GX 24019 23983 23994; GX 7618 7635 23974; GX 23974 7632 23969;
GX 23969 23972 7610; GA 7610 7651 7588; GA 7610 7642 7597; GX 7593 7597 24013].
(** aes128_with_ks.txt:15254-15503 *)
Definition aes_enc_file_g61 : list gate := [
GX 24011 24013 24025; GX 7600 24025 23991; GX 23969 23970 7609; GA 7609 7641 7599; GX 7599 7605 24017; GX 7598 24017 23990;
GX 24017 24013 23985; GA 7609 7652 7590; GX 7588 7590 23984; GX 23984 23985 24028; GX 24028 24018 7655; GI 7655 29441;
GX 29441 29448 16227; GI 16227 16094; GX 16094 29447 16092; GX 7589 7590 24000; GX 7592 24000 24020; GX 7595 24000 24005;
GX 7596 24005 24010; GX 7604 24010 24015; GX 24015 23990 7656; GI 7656 29442; GX 29442 29449 16226; GX 16226 29448 16090;
GX 7601 24015 24026; GX 24012 24026 29440; GX 29440 29447 16229; GX 24019 24026 29439; GX 29439 29446 16231; GX 7593 24020 23993;
GX 23993 23994 23992; GX 23992 24332 16237; GX 24020 23991 7657; GI 7657 29437; GX 29437 29444 16235; GX 7599 7602 23988;
GX 24011 24010 23989; GX 23988 23989 29443; GX 29443 29450 16195; GI 16195 16050; GX 16050 29437 16060; GX 16050 29439 16056;
GX 16050 29440 16049; GX 23983 24005 23982; GX 23981 23982 23980; GI 23980 24029; GX 24029 24025 29438; GX 29438 29445 16233;
GX 16233 29444 16096; GX 7582 24084 7578; GA 7578 7574 7567; GX 7567 24066 24071; GX 24071 24067 24077; GX 24091 24077 7558;
GX 1888 1894 7583; GA 7583 7568 7564; GX 7564 24064 24070; GX 24070 24069 24055; GX 24067 24055 7556; GX 24098 24070 24095;
GX 7563 24095 7557; GA 7558 7557 7554; GX 7554 7556 7553; GA 7555 7553 7552; GX 7564 7552 24039; GX 24071 24039 24035;
GX 1890 24035 24034; GX 7552 24077 24092; GX 1888 24035 24038; GX 7554 24090 24044; GX 24077 24044 7549; GA 7549 7550 7548;
GX 7548 7565 24042; GX 24042 7562 24037; GX 7548 7556 7547; GX 7548 24089 24043; GA 7547 1895 7533; GA 7547 7579 7524;
GX 24037 24038 7539; GA 7539 7582 7520; GA 7539 7571 7529; GX 7554 7548 7546; GA 7556 7546 7545; GX 7545 7563 24074;
GX 1894 24074 24082; GX 24082 24043 7544; GA 7544 7575 7525; GX 24090 24092 7551; GA 7551 7570 7530; GA 7551 7577 7521;
GX 7521 7533 24086; GX 7530 7533 24087; GX 7524 24086 24049; GX 7545 7553 7543; GA 7551 7543 7542; GX 7542 7566 24041;
GX 7542 7555 7541; GA 7541 7580 7531; GX 7542 24092 24036; GA 7541 7576 7522; GX 24082 24041 24033; GX 24033 24034 7536;
GA 7536 7569 7528; GX 7528 7531 24079; GA 7536 7584 7519; GX 7519 7520 24068; GX 7525 24068 24073; GX 7522 24068 24088;
GX 24064 24033 24040; GX 24037 24040 7540; GA 7540 7572 7527; GA 7540 7581 7518; GX 7518 7520 24052; GX 24091 24036 7538;
GA 7538 7583 7523; GA 7538 7568 7532; GX 7523 24088 24061; GX 7529 7532 24056; GX 7523 7527 24081; GX 24079 24081 24093;
GX 7530 24093 24059; GX 24088 24059 7587; GI 7587 29416; GA 7544 7573 7534; GX 24074 24095 7537; GA 7537 7578 7526;
GX 7526 24073 24078; GX 24079 24078 24057; GX 7534 24078 24083; GX 24056 24057 29422; GX 29401 29422 16189; GI 16189 15922;
GX 16189 29397 15925; GX 15922 29396 15919; GX 7531 24083 24094; GA 7537 7574 7535; GX 7529 7535 24085; GX 7532 7535 24080;
GI 24080 24051; GX 24051 24073 24050; GX 24085 24081 24053; GX 24052 24053 24096; GX 7528 24085 24058; GX 24083 24058 7586;
GI 7586 29421; GX 29422 29421 16015; GX 24087 24051 24062; GX 24061 24062 24060; GX 24060 24128 15916; GX 24049 24050 24048;
GI 24048 24097; GX 24080 24094 29419; GX 24096 24086 7585; GI 7585 29420; GX 24087 24094 29418; GX 24097 24093 29417;
GX 1914 23861 7778; GA 7793 7778 7774; GX 1915 1913 23862; GX 23862 1914 23827; GX 1919 23827 7789; GA 7789 1919 7775;
GA 7721 7712 7699; GX 7699 7705 23939; GX 1906 23939 23954; GX 7694 23954 23908; GX 23941 23908 7689; GX 7699 7702 23933;
GX 7700 23933 23953; GX 23934 23933 23919; GX 23931 23919 7696; GX 7694 7696 7693; GX 23940 23939 23918; GX 23928 23918 7695;
GX 7703 23953 23909; GX 1910 23909 7690; GA 7689 7690 7688; GX 7688 7696 7687; GA 7687 7719 7664; GA 7687 1911 7673;
GX 7688 7705 23906; GX 23906 7702 23901; GA 7695 7693 7692; GX 7704 7692 23903; GX 23935 23903 23899; GX 1904 23899 23902;
GX 23901 23902 7679; GA 7679 7722 7660; GX 1906 23899 23898; GX 7688 23953 23907; GX 7692 23941 23956; GX 23954 23956 7691;
GA 7691 7717 7661; GX 7661 7673 23950; GA 7691 7710 7670; GX 7670 7673 23951; GX 7664 23950 23913; GX 7694 7688 7686;
GA 7696 7686 7685; GX 7685 7703 23938; GX 23938 23959 7677; GX 7685 7693 7683; GA 7691 7683 7682; GX 7682 7695 7681;
GX 7682 7706 23905; GA 7681 7720 7671; GX 7682 23956 23900; GX 23955 23900 7678; GA 7678 7708 7672; GA 7677 7714 7675;
GX 7672 7675 23944; GI 23944 23915; GX 23951 23915 23926; GA 7678 7723 7663; GA 7681 7716 7662; GA 7677 7718 7666;
GX 1910 23938 23946; GX 23946 23907 7684; GA 7684 7715 7665; GA 7684 7713 7674; GX 23946 23905 23897; GX 23897 23898 7676;
GA 7676 7724 7659; GX 7659 7660 23932; GX 7665 23932 23937; GX 23915 23937 23914; GX 7666 23937 23942; GA 7676 7709 7668;
GX 7668 7671 23943; GX 23943 23942 23921; GX 23913 23914 23912; GI 23912 23961; GX 7662 23932 23952; GX 7663 23952 23925;
GX 23925 23926 23924; GX 7674 23942 23947; GX 23928 23897 23904; GX 23901 23904 7680; GA 7680 7721 7658; GX 7658 7660 23916;
GA 7680 7712 7667; GX 7663 7667 23945; GX 23943 23945 23957; GX 23961 23957 29459; GI 29459 15958; GX 7670 23957 23923;
GX 23952 23923 7727; GI 7727 29458; GI 29458 15949; GX 7671 23947 23958].
(** aes128_with_ks.txt:15504-15753 *)
Definition aes_enc_file_g62 : list gate := [
GX 23944 23958 29461; GX 23951 23958 29460; GI 29460 15955; GA 7679 7711 7669; GX 7669 7672 23920; GX 23920 23921 29464;
GX 7669 7675 23949; GX 7668 23949 23922; GX 23947 23922 7726; GX 23949 23945 23917; GX 23916 23917 23960; GX 23960 23950 7725;
GI 7725 29462; GI 29462 16006; GI 7726 29463; GX 29464 29463 16003; GX 1913 23861 7781; GX 1915 1912 7792;
GX 23859 7792 7784; GA 7792 7781 7771; GX 7792 23880 7788; GX 7771 23861 23863; GA 7788 7784 7777; GX 7777 23862 23867;
GX 23867 23863 23873; GX 7770 7771 23842; GX 23842 23843 23894; GX 1919 7784 7783; GA 7785 7783 7776; GX 7770 7776 23872;
GX 1912 23872 23887; GX 23887 23873 7768; GX 23862 23860 23828; GX 23859 23828 7782; GA 7791 7782 7769; GX 7769 7775 23871;
GX 7769 7772 23865; GX 7770 23865 23885; GX 23872 23871 23850; GX 1914 23871 23886; GX 23860 23850 7765; GX 7773 23885 23841;
GX 1918 23841 7760; GX 7774 23860 23866; GX 23866 23865 23851; GX 23863 23851 7766; GX 23894 23866 23891; GX 7773 23891 7767;
GA 7768 7767 7764; GX 7764 7766 7763; GA 7765 7763 7762; GX 7774 7762 23835; GX 23867 23835 23831; GX 1914 23831 23830;
GX 1912 23831 23834; GX 7764 23886 23840; GX 23873 23840 7759; GA 7759 7760 7758; GX 7758 23885 23839; GX 7758 7766 7757;
GA 7757 7789 7734; GX 7758 7775 23838; GX 23838 7772 23833; GX 23833 23834 7749; GA 7749 7781 7739; GA 7757 1919 7743;
GA 7749 7792 7730; GX 7764 7758 7756; GA 7766 7756 7755; GX 7755 7763 7753; GX 7755 7773 23870; GX 1918 23870 23878;
GX 23878 23839 7754; GA 7754 7785 7735; GX 23870 23891 7747; GA 7747 7788 7736; GA 7747 7784 7745; GX 7739 7745 23881;
GA 7754 7783 7744; GX 7762 23873 23888; GX 23886 23888 7761; GA 7761 7780 7740; GX 7740 7743 23883; GA 7761 7787 7731;
GX 7731 7743 23882; GX 7734 23882 23845; GA 7761 7753 7752; GX 7752 7776 23837; GX 7752 7765 7751; GA 7751 7790 7741;
GX 7752 23888 23832; GX 23887 23832 7748; GA 7751 7786 7732; GX 23878 23837 23829; GX 23860 23829 23836; GX 23829 23830 7746;
GX 23833 23836 7750; GA 7750 7782 7737; GA 7750 7791 7728; GX 7728 7730 23848; GA 7746 7779 7738; GX 7738 23881 23854;
GA 7748 7778 7742; GX 7742 7745 23876; GI 23876 23847; GX 23883 23847 23858; GX 7739 7742 23852; GA 7746 7794 7729;
GA 7748 7793 7733; GX 7733 7737 23877; GX 23881 23877 23849; GX 23848 23849 23892; GX 23892 23882 7795; GI 7795 29483;
GX 7729 7730 23864; GX 7735 23864 23869; GX 7732 23864 23884; GX 7733 23884 23857; GX 23847 23869 23846; GX 7736 23869 23874;
GX 7744 23874 23879; GX 23857 23858 23856; GX 7741 23879 23890; GX 23876 23890 29482; GX 23883 23890 29481; GX 23879 23854 7796;
GI 7796 29484; GX 23845 23846 23844; GI 23844 23893; GX 7738 7741 23875; GX 23875 23874 23853; GX 23852 23853 29485;
GX 23875 23877 23889; GX 7740 23889 23855; GX 23884 23855 7797; GI 7797 29479; GX 23893 23889 29480; GI 8145 29716;
GX 29709 29716 15850; GI 15850 15676; GX 15676 29715 15674; GX 15674 15675 29576; GX 29576 674 1850; GX 1850 24405 7218;
GX 15849 29716 15668; GX 15668 15669 29577; GX 29577 673 1849; GX 1855 1849 24412; GX 1851 1849 24406; GX 7217 24406 24411;
GX 1849 24405 7221; GX 15855 15850 15655; GX 29695 15655 29584; GX 29584 682 1842; GX 1842 24480 7160; GX 1846 7160 7156;
GA 7156 7160 7143; GX 1842 24473 7148; GX 15853 29716 15645; GX 15645 15646 29592; GX 29592 690 1834; GX 1834 24541 7078;
GX 1834 1832 24540; GX 24540 7094 7079; GX 24542 1834 24507; GX 24542 24540 24508; GX 1839 24507 7089; GX 24540 24548 7087;
GX 24560 7087 7085; GA 7087 7080 7072; GA 7085 7083 7076; GX 15851 15850 15624; GX 29710 15624 29601; GX 29601 697 1825;
GX 24539 24508 7082; GA 7233 7218 7214; GA 7232 7221 7211; GX 7211 24405 24407; GX 24411 24407 24417; GA 7089 1839 7075;
GX 1842 1840 24472; GX 24474 24472 24440; GX 24472 7164 7149; GX 24472 24480 7157; GX 24492 7157 7155; GA 7157 7150 7142;
GA 7155 7153 7146; GX 1834 24548 7090; GX 1838 7090 7086; GA 7086 7090 7073; GA 7164 7149 7140; GX 7140 7146 24484;
GX 1840 24484 24499; GX 24499 24485 7138; GA 7094 7079 7070; GX 24412 24405 7220; GA 7093 7078 7074; GX 24406 1850 24371;
GX 7070 7071 24522; GX 24522 24523 24574; GX 24471 24440 7152; GA 7161 7152 7139; GX 7139 7142 24477; GX 7140 24477 24497;
GX 1855 24371 7229; GA 7229 1855 7215; GX 1850 1848 24404; GX 24404 7234 7219; GX 24406 24404 24372; GA 7234 7219 7210;
GX 7210 7211 24386; GX 24403 24372 7222; GA 7231 7222 7209; GX 7209 7215 24415; GX 24404 24412 7227; GX 24424 7227 7225;
GA 7225 7223 7216; GA 7227 7220 7212; GX 1850 24415 24430; GX 7209 7212 24409; GX 7210 7216 24416; GX 1848 24416 24431;
GX 24431 24417 7208; GX 24416 24415 24394; GX 24404 24394 7205; GX 7214 24404 24410; GX 24410 24409 24395; GX 24407 24395 7206;
GX 24386 24387 24438; GX 24438 24410 24435; GA 7091 7082 7069; GX 7210 24409 24429; GX 7140 7141 24454; GX 1850 24412 7230;
GX 1854 7230 7226; GA 7226 7230 7213; GX 7213 24429 24385; GX 1854 24385 7200; GX 7213 24435 7207; GA 7208 7207 7204;
GX 7204 24430 24384; GX 7204 7206 7203; GA 7205 7203 7202; GX 7202 24417 24432; GX 7214 7202 24379; GX 24411 24379 24375;
GX 24430 24432 7201; GA 7201 7227 7171; GA 7201 7220 7180; GX 24417 24384 7199].
(** aes128_with_ks.txt:15754-16003 *)
Definition aes_enc_file_g63 : list gate := [
GA 7199 7200 7198; GX 7198 7206 7197; GA 7197 1855 7183; GX 7171 7183 24426; GX 7180 7183 24427; GX 7204 7198 7196;
GA 7206 7196 7195; GX 7195 7213 24414; GX 24414 24435 7187; GA 7187 7224 7185; GX 7198 7215 24382; GX 24382 7212 24377;
GX 7195 7203 7193; GA 7201 7193 7192; GX 7192 7216 24381; GX 7192 7205 7191; GA 7191 7230 7181; GX 1854 24414 24422;
GX 24422 24381 24373; GX 24404 24373 24380; GX 24377 24380 7190; GA 7190 7231 7168; GA 7190 7222 7177; GA 7187 7228 7176;
GX 1850 24375 24374; GX 7198 24429 24383; GX 24422 24383 7194; GA 7194 7223 7184; GA 7194 7225 7175; GA 7197 7229 7174;
GX 7174 24426 24389; GX 24373 24374 7186; GA 7186 7219 7178; GX 7178 7181 24419; GX 1848 24375 24378; GX 24377 24378 7189;
GA 7189 7221 7179; GX 7179 7185 24425; GX 7178 24425 24398; GX 7192 24432 24376; GX 24431 24376 7188; GA 7188 7218 7182;
GX 7179 7182 24396; GX 7182 7185 24420; GI 24420 24391; GX 24427 24391 24402; GX 24454 24455 24506; GX 7143 24497 24453;
GX 1846 24453 7130; GX 7069 7075 24551; GX 7069 7072 24545; GX 7070 24545 24565; GX 7073 24565 24521; GX 1838 24521 7060;
GX 7074 24540 24546; GX 24574 24546 24571; GX 7073 24571 7067; GX 7070 7076 24552; GX 24552 24551 24530; GX 24540 24530 7065;
GX 1834 24551 24566; GX 1832 24552 24567; GX 24567 24553 7068; GA 7068 7067 7064; GX 7064 24566 24520; GX 24553 24520 7059;
GA 7059 7060 7058; GX 7064 7058 7056; GX 7058 24565 24519; GX 7058 7075 24518; GX 24518 7072 24513; GX 24546 24545 24531;
GX 24543 24531 7066; GX 7058 7066 7057; GA 7066 7056 7055; GA 7057 7089 7034; GA 7057 1839 7043; GX 7064 7066 7063;
GX 7055 7063 7053; GA 7065 7063 7062; GX 7062 24553 24568; GX 24566 24568 7061; GA 7061 7087 7031; GA 7061 7053 7052;
GX 7052 7065 7051; GX 7052 24568 24512; GX 7052 7076 24517; GA 7051 7086 7032; GX 24567 24512 7048; GA 7048 7078 7042;
GA 7048 7093 7033; GX 7074 7062 24515; GX 24547 24515 24511; GX 1832 24511 24514; GX 24513 24514 7049; GA 7049 7081 7039;
GX 7039 7042 24532; GA 7049 7092 7030; GX 1834 24511 24510; GA 7061 7080 7040; GX 7040 7043 24563; GA 7051 7090 7041;
GX 7055 7073 24550; GX 24550 24571 7047; GA 7047 7084 7045; GX 7042 7045 24556; GI 24556 24527; GX 24563 24527 24538;
GA 7047 7088 7036; GX 1838 24550 24558; GX 24558 24519 7054; GA 7054 7083 7044; GX 24558 24517 24509; GX 24509 24510 7046;
GA 7046 7094 7029; GA 7046 7079 7038; GX 7038 7041 24555; GX 24540 24509 24516; GX 24513 24516 7050; GA 7050 7091 7028;
GX 7028 7030 24528; GA 7054 7085 7035; GA 7050 7082 7037; GX 7029 7030 24544; GX 7035 24544 24549; GX 7032 24544 24564;
GX 7033 24564 24537; GX 24537 24538 24536; GX 24527 24549 24526; GX 7036 24549 24554; GX 24555 24554 24533; GX 7033 7037 24557;
GX 7044 24554 24559; GX 7039 7045 24561; GX 7038 24561 24534; GX 24559 24534 7096; GI 7096 29498; GX 24561 24557 24529;
GX 24528 24529 24572; GX 7031 7043 24562; GX 24572 24562 7095; GX 7034 24562 24525; GX 24525 24526 24524; GI 24524 24573;
GI 7095 29497; GX 24555 24557 24569; GX 24573 24569 29494; GX 7040 24569 24535; GX 24564 24535 7097; GI 7097 29493;
GI 29493 16144; GX 7041 24559 24570; GX 24556 24570 29496; GX 24563 24570 29495; GI 29496 16137; GX 24532 24533 29499;
GX 24474 1842 24439; GX 1847 24439 7159; GA 7159 1847 7145; GX 7139 7145 24483; GX 24484 24483 24462; GX 1842 24483 24498;
GX 24472 24462 7135; GA 7163 7148 7144; GX 7144 24472 24478; GX 24506 24478 24503; GX 7143 24503 7137; GA 7138 7137 7134;
GX 24478 24477 24463; GX 24475 24463 7136; GX 7134 7136 7133; GA 7135 7133 7132; GX 7132 24485 24500; GX 24498 24500 7131;
GA 7131 7150 7110; GA 7131 7157 7101; GX 7134 24498 24452; GX 24485 24452 7129; GA 7129 7130 7128; GX 7128 24497 24451;
GX 7128 7136 7127; GA 7127 1847 7113; GX 7110 7113 24495; GX 7101 7113 24494; GA 7127 7159 7104; GX 7104 24494 24457;
GX 7134 7128 7126; GA 7136 7126 7125; GX 7125 7133 7123; GA 7131 7123 7122; GX 7122 24500 24444; GX 24499 24444 7118;
GA 7118 7163 7103; GX 7122 7135 7121; GA 7121 7156 7102; GA 7121 7160 7111; GA 7118 7148 7112; GX 7125 7143 24482;
GX 24482 24503 7117; GA 7117 7158 7106; GX 1846 24482 24490; GA 7117 7154 7115; GX 7112 7115 24488; GI 24488 24459;
GX 24495 24459 24470; GX 24490 24451 7124; GA 7124 7155 7105; GX 7128 7145 24450; GX 24450 7142 24445; GX 7122 7146 24449;
GX 24490 24449 24441; GX 24472 24441 24448; GX 24445 24448 7120; GA 7120 7152 7107; GA 7120 7161 7098; GX 7103 7107 24489;
GX 7144 7132 24447; GX 24479 24447 24443; GX 1840 24443 24446; GX 24445 24446 7119; GA 7119 7151 7109; GX 7109 7115 24493;
GX 7109 7112 24464; GX 24493 24489 24461; GA 7119 7162 7100; GX 7098 7100 24460; GX 24460 24461 24504; GX 24504 24494 7165;
GI 7165 29406; GX 29399 29406 16244; GX 16244 29420 16121; GI 29406 16053; GX 29419 16053 16052; GX 1842 24443 24442;
GX 24441 24442 7116; GA 7116 7164 7099; GX 7099 7100 24476; GX 7102 24476 24496; GX 7105 24476 24481; GX 7106 24481 24486;
GX 7103 24496 24469; GX 24469 24470 24468; GX 24128 24468 16253; GA 7116 7149 7108; GX 7108 7111 24487; GX 24487 24489 24501;
GX 7110 24501 24467; GX 24496 24467 7167; GI 7167 29402; GX 29395 29402 16252].
(** aes128_with_ks.txt:16004-16253 *)
Definition aes_enc_file_g64 : list gate := [
GI 16252 16114; GX 16189 29402 15915; GX 15915 15916 16277; GX 7108 24493 24466; GX 24487 24486 24465; GX 24464 24465 29408;
GX 29401 29408 16196; GI 16196 15982; GX 15982 29397 16148; GX 15982 29398 16130; GX 15982 29395 15981; GX 24459 24481 24458;
GX 24457 24458 24456; GI 24456 24505; GX 24505 24501 29403; GX 29396 29403 16250; GX 16250 29402 16123; GX 29395 29403 16102;
GA 7124 7153 7114; GX 7114 24486 24491; GX 7111 24491 24502; GX 24495 24502 29404; GX 29397 29404 16248; GI 16248 16110;
GI 29404 15921; GX 29417 15921 15920; GX 15919 15920 16275; GX 24491 24466 7166; GI 7166 29407; GX 29400 29407 16242;
GI 16242 16120; GX 16120 15922 16126; GX 16120 29421 16118; GX 29408 29407 16117; GX 29420 29407 16035; GX 24488 24502 29405;
GX 29398 29405 16246; GI 16246 16107; GX 29418 29405 15926; GX 15925 15926 16273; GA 7188 7233 7173; GX 7173 7177 24421;
GX 24419 24421 24433; GX 24425 24421 24393; GX 7180 24433 24399; GA 7191 7226 7172; GA 7189 7232 7170; GX 7168 7170 24392;
GX 24392 24393 24436; GX 24436 24426 7235; GI 7235 29427; GA 7186 7234 7169; GX 7169 7170 24408; GX 7172 24408 24428;
GX 24428 24399 7237; GX 7175 24408 24413; GX 7176 24413 24418; GX 7184 24418 24423; GX 24419 24418 24397; GX 24423 24398 7236;
GX 24396 24397 29429; GX 29429 29450 16187; GX 16237 16187 16098; GI 16187 15933; GX 16187 29442 16063; GX 16187 29446 15943;
GX 15933 29445 15936; GX 15933 24332 15930; GX 7173 24428 24401; GX 24401 24402 24400; GX 7181 24423 24434; GX 24427 24434 29425;
GX 24420 24434 29426; GX 24391 24413 24390; GX 24389 24390 24388; GI 24388 24437; GX 24437 24433 29424; GI 7237 29423;
GI 7236 29428; GX 29449 29428 16089; GX 1961 23453 8201; GA 8212 8201 8191; GX 8190 8191 23434; GX 8191 23453 23455;
GX 23459 23455 23465; GX 23455 23443 8186; GX 23479 23465 8188; GX 23434 23435 23486; GX 23486 23458 23483; GX 8193 23483 8187;
GA 8188 8187 8184; GX 8184 8186 8183; GA 8185 8183 8182; GX 8184 23478 23432; GX 8182 23465 23480; GX 23478 23480 8181;
GA 8181 8200 8160; GA 8181 8207 8151; GX 23465 23432 8179; GA 8179 8180 8178; GX 8178 8195 23430; GX 23430 8192 23425;
GX 8178 23477 23431; GX 8184 8178 8176; GA 8186 8176 8175; GX 8175 8183 8173; GX 8175 8193 23462; GX 23462 23483 8167;
GA 8167 8208 8156; GA 8167 8204 8165; GX 1966 23462 23470; GX 23470 23431 8174; GA 8174 8205 8155; GA 8174 8203 8164;
GA 8181 8173 8172; GX 8172 8185 8171; GA 8171 8210 8161; GA 8171 8206 8152; GX 8172 8196 23429; GX 23470 23429 23421;
GX 23452 23421 23428; GX 8172 23480 23424; GX 23479 23424 8168; GA 8168 8213 8153; GA 8168 8198 8162; GX 8162 8165 23468;
GI 23468 23439; GX 23425 23428 8170; GA 8170 8202 8157; GA 8170 8211 8148; GX 8153 8157 23469; GX 8194 8182 23427;
GX 23459 23427 23423; GX 1962 23423 23422; GX 1960 23423 23426; GX 23425 23426 8169; GA 8169 8201 8159; GX 8159 8162 23444;
GA 8169 8212 8150; GX 8159 8165 23473; GX 8148 8150 23440; GX 23421 23422 8166; GA 8166 8199 8158; GX 8158 8161 23467;
GX 23467 23469 23481; GX 8160 23481 23447; GA 8166 8214 8149; GX 8149 8150 23456; GX 8155 23456 23461; GX 23439 23461 23438;
GX 8158 23473 23446; GX 8152 23456 23476; GX 8153 23476 23449; GX 8156 23461 23466; GX 8164 23466 23471; GX 23467 23466 23445;
GX 23444 23445 29739; GX 29732 29739 15819; GX 29739 29746 15828; GX 15819 29746 15811; GX 15811 15812 29610; GX 29610 640 1816;
GX 29739 15799 29618; GX 29618 648 1808; GX 15848 15819 15798; GX 23788 15798 29619; GX 29619 663 1807; GX 15848 15828 15782;
GX 15819 29743 15615; GI 15615 15613; GX 15819 29742 15609; GX 15819 29740 15603; GX 23471 23446 8216; GX 8161 23471 23482;
GX 23468 23482 29736; GX 29736 29743 15838; GX 15892 15838 29607; GX 29607 643 1819; GX 1819 1816 6952; GX 15843 15838 15803;
GX 15803 15804 29615; GX 29615 651 1811; GI 29736 15774; GX 15774 29729 15794; GX 15793 15794 15792; GI 15792 29624;
GX 29624 658 1802; GX 15828 15774 15773; GX 15839 15838 15770; GX 1811 1808 6882; GX 23476 23447 8217; GI 8217 29733;
GX 29733 29740 15844; GX 15896 15844 29604; GX 29604 646 1822; GX 1816 1822 6953; GX 15848 15844 15808; GX 15808 15809 29612;
GX 29612 654 1814; GI 29733 15781; GX 15781 29726 15796; GX 15795 15796 29621; GX 29621 661 1805; GX 15828 15781 15780;
GX 15845 15844 15777; GX 1808 1814 6883; GI 8216 29738; GX 29738 29745 15835; GX 15835 29744 15813; GX 15813 15814 29609;
GX 29609 641 1817; GX 1819 1817 24678; GX 15839 15835 15800; GX 29724 15800 29617; GX 29617 649 1809; GX 1811 1809 24746;
GX 15820 29738 15786; GX 15786 15787 29626; GX 29626 656 1800; GX 1800 1805 6811; GX 15835 15819 15768; GX 29725 15768 29634;
GX 29634 664 1792; GX 1802 1800 24812; GX 23473 23469 23441; GX 23440 23441 23484; GX 8178 8186 8177; GA 8177 8209 8154;
GA 8177 1967 8163; GX 8151 8163 23474; GX 8160 8163 23475; GX 23475 23482 29735; GX 23475 23439 23450; GX 29735 29742 15840;
GX 15894 15840 29606; GX 29606 644 1820; GX 1822 1820 24675; GX 15845 15840 15805; GX 15805 15806 29614; GX 29614 652 1812;
GX 15828 29735 15776; GX 15841 15840 15772; GX 15772 15773 15771; GI 15771 29631; GX 29631 667 1795; GX 29735 15607 15614;
GX 15613 15614 15891; GX 15891 15841 29623; GX 29623 659 1803; GX 1803 1800 6812].
(** aes128_with_ks.txt:16254-16503 *)
Definition aes_enc_file_g65 : list gate := [
GX 1795 1792 6742; GX 1814 1812 24743; GX 24743 6882 6874; GX 24675 6952 6944; GX 8154 23474 23437; GX 23437 23438 23436;
GX 23484 23474 8215; GI 8215 29737; GX 29737 29744 15836; GI 15836 15817; GX 15817 29743 15815; GX 15815 15816 29608;
GX 29608 642 1818; GX 24678 1818 24643; GX 15841 15836 15802; GX 29723 15802 29616; GX 29616 650 1810; GX 29737 15790 15789;
GX 15788 15789 29625; GX 29625 657 1801; GX 29737 15770 29632; GX 29632 666 1794; GX 15837 15836 15769; GX 29738 15769 29633;
GX 29633 665 1793; GX 1795 1793 24882; GX 24882 1794 24847; GX 1807 1801 24820; GX 1802 24820 6810; GX 1810 1808 24744;
GX 24746 24744 24712; GX 24812 24820 6807; GX 1805 1803 6814; GI 23436 23485; GX 23485 23481 29734; GX 29734 29741 15842;
GX 15847 15842 15807; GX 29720 15807 29613; GX 29613 653 1813; GX 29734 15777 29629; GX 29629 669 1797; GX 1797 1795 6744;
GX 15843 15842 15775; GX 15775 15776 29630; GX 29630 668 1796; GX 15842 29719 15620; GX 15620 15621 29605; GX 29605 645 1821;
GX 1821 24675 24677; GX 29734 29727 15610; GX 15609 15610 15893; GX 15893 15843 29622; GX 29622 660 1804; GX 1804 1805 24795;
GX 1812 1813 24727; GX 1820 1821 24659; GX 1808 1813 6881; GX 1822 1821 24696; GX 1813 24743 24745; GX 1809 24745 6871;
GA 6882 6871 6861; GX 6861 24745 24747; GX 1810 24745 6868; GA 6883 6868 6864; GX 6864 24744 24750; GX 24743 24712 6872;
GX 24812 6814 6799; GX 24746 1810 24711; GX 1792 1797 6741; GX 1814 1813 24764; GX 6882 24764 6878; GA 6878 6874 6867;
GX 6867 24746 24751; GX 24751 24747 24757; GA 6881 6872 6859; GX 1813 1811 6884; GX 24744 6884 6869; GA 6884 6869 6860;
GX 23449 23450 23448; GX 23448 23788 15846; GX 15846 15827 15810; GX 22768 15810 29611; GX 29611 655 1815; GX 23448 15782 29627;
GX 29627 671 1799; GX 1799 1793 24888; GX 15847 15846 15779; GX 15779 15780 15778; GI 15778 29628; GX 29628 670 1798;
GX 1798 1796 24879; GX 1797 24879 24881; GX 1793 24881 6731; GX 24888 24881 6730; GX 1794 24881 6728; GX 1792 1798 6743;
GA 6743 6728 6724; GX 1798 1797 24900; GX 6742 24900 6738; GX 24879 6742 6734; GX 1799 6734 6733; GX 15846 15820 15622;
GX 23108 15622 29603; GX 29603 647 1823; GX 1823 1817 24684; GX 23448 23108 15604; GX 15603 15604 15895; GX 15895 15847 29620;
GX 29620 662 1806; GX 1806 1804 24811; GX 1805 24811 24813; GX 1802 24813 6798; GX 24820 24813 6800; GA 6807 6800 6792;
GX 1806 6810 6806; GX 1800 1806 6813; GX 1823 6944 6943; GX 1815 24711 6879; GA 6879 1815 6865; GX 6859 6865 24755;
GX 1810 24755 24770; GX 1815 1809 24752; GX 24744 24752 6877; GX 1810 24752 6880; GX 1814 6880 6876; GA 6876 6880 6863;
GX 24811 6812 6804; GA 6742 6731 6721; GX 6721 24881 24883; GX 1815 6874 6873; GX 1807 6804 6803; GX 1818 24684 6950;
GX 1822 6950 6946; GA 6946 6950 6933; GX 24764 6877 6875; GA 6875 6873 6866; GX 6860 6866 24756; GX 24756 24755 24734;
GX 24744 24734 6855; GX 1794 24888 6740; GX 1798 6740 6736; GA 6736 6740 6723; GX 1818 1816 24676; GX 24678 24676 24644;
GX 24676 24684 6947; GX 24696 6947 6945; GA 6945 6943 6936; GX 24675 24644 6942; GX 24752 24745 6870; GA 6877 6870 6862;
GX 6859 6862 24749; GX 24750 24749 24735; GX 24747 24735 6856; GX 6860 24749 24769; GX 6863 24769 24725; GX 1814 24725 6850;
GX 1821 1819 6954; GX 24676 6954 6939; GA 6954 6939 6930; GX 1808 24756 24771; GX 24771 24757 6858; GX 6952 24696 6948;
GA 6948 6944 6937; GX 1816 1821 6951; GA 6951 6942 6929; GX 6860 6861 24726; GX 24726 24727 24778; GX 24778 24750 24775;
GX 6863 24775 6857; GA 6858 6857 6854; GX 6854 6856 6853; GA 6855 6853 6852; GX 6852 24757 24772; GX 24770 24772 6851;
GA 6851 6877 6821; GX 6864 6852 24719; GX 24751 24719 24715; GX 1808 24715 24718; GX 1810 24715 24714; GA 6851 6870 6830;
GX 6937 24678 24683; GX 1803 1801 24814; GX 24814 1802 24779; GX 1807 24779 6809; GX 24814 24812 24780; GX 24811 24780 6802;
GA 6809 1807 6795; GX 1806 1805 24832; GX 24832 6807 6805; GX 6812 24832 6808; GA 6808 6804 6797; GX 6797 24814 24819;
GA 6805 6803 6796; GX 1801 24813 6801; GX 1794 1792 24880; GX 24880 6744 6729; GA 6744 6729 6720; GX 24880 24888 6737;
GX 24900 6737 6735; GA 6735 6733 6726; GX 6720 6726 24892; GX 1792 24892 24907; GX 6724 24880 24886; GA 6737 6730 6722;
GX 6720 6721 24862; GX 1796 1797 24863; GX 24862 24863 24914; GX 24914 24886 24911; GX 6723 24911 6717; GX 24882 24880 24848;
GX 24879 24848 6732; GA 6741 6732 6719; GX 6719 6722 24885; GX 6720 24885 24905; GX 6723 24905 24861; GX 24886 24885 24871;
GX 24883 24871 6716; GX 1798 24861 6710; GX 1799 24847 6739; GA 6739 1799 6725; GX 6719 6725 24891; GX 1794 24891 24906;
GX 24892 24891 24870; GX 24880 24870 6715; GA 6738 6734 6727; GX 6727 24882 24887; GX 24887 24883 24893; GX 24907 24893 6718;
GA 6718 6717 6714; GX 6714 6716 6713; GA 6715 6713 6712; GX 6712 24893 24908; GX 24906 24908 6711; GA 6711 6730 6690;
GA 6711 6737 6681; GX 6714 24906 24860; GX 24893 24860 6709; GA 6709 6710 6708; GX 6708 24905 24859; GX 6708 6716 6707;
GA 6707 6739 6684; GA 6707 1799 6693; GX 6681 6693 24902; GX 6684 24902 24865; GX 6714 6708 6706; GX 6690 6693 24903;
GX 6708 6725 24858; GX 24858 6722 24853; GX 6724 6712 24855; GX 24887 24855 24851].
(** aes128_with_ks.txt:16504-16753 *)
Definition aes_enc_file_g66 : list gate := [
GX 1794 24851 24850; GX 1792 24851 24854; GX 24853 24854 6699; GA 6699 6731 6689; GA 6699 6742 6680; GA 6716 6706 6705;
GX 6705 6723 24890; GX 1798 24890 24898; GX 24890 24911 6697; GA 6697 6734 6695; GA 6697 6738 6686; GX 6689 6695 24901;
GX 6705 6713 6703; GA 6711 6703 6702; GX 6702 6715 6701; GA 6701 6736 6682; GA 6701 6740 6691; GX 6702 6726 24857;
GX 24898 24857 24849; GX 24849 24850 6696; GA 6696 6744 6679; GX 6679 6680 24884; GX 6682 24884 24904; GA 6696 6729 6688;
GX 6688 24901 24874; GX 6688 6691 24895; GX 24880 24849 24856; GX 24898 24859 6704; GA 6704 6733 6694; GA 6704 6735 6685;
GX 6685 24884 24889; GX 6686 24889 24894; GX 24895 24894 24873; GX 6694 24894 24899; GX 6691 24899 24910; GX 24903 24910 29502;
GX 29495 29502 16203; GX 24899 24874 6746; GI 6746 29505; GX 29498 29505 16198; GX 29505 29484 16175; GX 24853 24856 6700;
GA 6700 6741 6678; GA 6700 6732 6687; GX 6678 6680 24868; GX 6702 24908 24852; GX 24907 24852 6698; GA 6698 6728 6692;
GX 6692 6695 24896; GX 24896 24910 29503; GX 29496 29503 16201; GI 24896 24867; GA 6698 6743 6683; GX 6683 6687 24897;
GX 24901 24897 24869; GX 24868 24869 24912; GX 24903 24867 24878; GX 6683 24904 24877; GX 24877 24878 24876; GX 24536 24876 16209;
GX 24895 24897 24909; GX 6690 24909 24875; GX 24904 24875 6747; GI 6747 29500; GX 29493 29500 16207; GX 24912 24902 6745;
GI 6745 29504; GX 29497 29504 16199; GI 16199 16180; GX 16180 29503 16178; GX 16198 29504 16176; GX 6689 6692 24872;
GX 24872 24873 29506; GX 29485 29506 16183; GX 29499 29506 16191; GI 16183 15971; GX 16183 29498 16149; GX 16191 16144 16143;
GX 16191 29495 16139; GX 16191 16137 16136; GX 16209 16183 15985; GX 16183 29481 15974; GX 15971 29480 15968; GX 16183 23856 15964;
GX 24867 24889 24866; GX 24865 24866 24864; GI 24864 24913; GX 24913 24909 29501; GX 29494 29501 16205; GX 16205 29479 15983;
GX 6854 24770 24724; GX 24757 24724 6849; GA 6849 6850 6848; GX 6848 24769 24723; GX 6848 6856 6847; GA 6847 6879 6824;
GA 6847 1815 6833; GX 6821 6833 24766; GX 6824 24766 24729; GX 6848 6865 24722; GX 24722 6862 24717; GX 24717 24718 6839;
GA 6839 6871 6829; GX 6854 6848 6846; GA 6856 6846 6845; GX 6845 6863 24754; GX 6845 6853 6843; GA 6851 6843 6842;
GX 6842 6855 6841; GA 6841 6876 6822; GX 6842 24772 24716; GX 6842 6866 24721; GX 24771 24716 6838; GA 6838 6883 6823;
GA 6838 6868 6832; GA 6841 6880 6831; GX 6829 6832 24736; GX 24754 24775 6837; GA 6837 6874 6835; GX 6829 6835 24765;
GX 6832 6835 24760; GI 24760 24731; GX 1814 24754 24762; GX 24762 24721 24713; GX 24744 24713 24720; GX 24762 24723 6844;
GA 6844 6875 6825; GX 24717 24720 6840; GA 6840 6881 6818; GA 6844 6873 6834; GX 24713 24714 6836; GA 6836 6884 6819;
GX 6830 6833 24767; GX 24767 24731 24742; GA 6837 6878 6826; GX 1818 24677 6938; GA 6953 6938 6934; GX 6934 24676 24682;
GX 24684 24677 6940; GA 6947 6940 6932; GX 6929 6932 24681; GX 6930 24681 24701; GX 6933 24701 24657; GX 1822 24657 6920;
GX 24682 24681 24667; GA 6839 6882 6820; GX 6819 6820 24748; GX 6822 24748 24768; GX 6825 24748 24753; GX 24731 24753 24730;
GX 24729 24730 24728; GI 24728 24777; GX 6826 24753 24758; GX 6834 24758 24763; GX 6831 24763 24774; GX 24760 24774 29433;
GX 29426 29433 16232; GX 16232 16227 16077; GX 29427 16077 29312; GX 29312 842 2770; GX 29440 29433 16070; GX 16232 16231 16048;
GX 16048 16049 16047; GI 16047 29327; GX 29327 859 2755; GX 29433 29425 15944; GX 15943 15944 16267; GX 16267 16229 29303;
GX 29303 835 2779; GX 24767 24774 29432; GX 29425 29432 16234; GI 16234 16057; GX 16057 16229 16078; GX 16057 16233 16055;
GX 16055 16056 29326; GX 29326 860 2756; GI 29432 15938; GX 29439 15938 15946; GX 15938 29424 15937; GX 15936 15937 16269;
GX 16269 16231 29302; GX 29302 836 2780; GX 6823 24768 24741; GX 24741 24742 24740; GX 24400 24740 16239; GX 24740 16098 29299;
GX 29299 839 2783; GI 16239 16086; GX 16086 16235 16084; GX 16239 16195 16062; GX 23992 16062 29323; GX 29323 863 2759;
GX 23992 24740 15935; GX 6818 6820 24732; GX 1823 24643 6949; GA 6949 1823 6935; GX 6929 6935 24687; GX 1818 24687 24702;
GX 6930 6936 24688; GX 1816 24688 24703; GX 24688 24687 24666; GX 24676 24666 6925; GA 6813 6798 6794; GX 6794 24812 24818;
GA 6806 6810 6793; GA 6812 6801 6791; GX 6791 24813 24815; GX 24819 24815 24825; GA 6814 6799 6790; GX 6790 6791 24794;
GX 24794 24795 24846; GX 24846 24818 24843; GX 6790 6796 24824; GX 1800 24824 24839; GX 24839 24825 6788; GX 6793 24843 6787;
GA 6788 6787 6784; GA 6811 6802 6789; GX 6789 6795 24823; GX 24824 24823 24802; GX 24812 24802 6785; GX 1802 24823 24838;
GX 6784 24838 24792; GX 6789 6792 24817; GX 6790 24817 24837; GX 6793 24837 24793; GX 1806 24793 6780; GX 24818 24817 24803;
GX 24815 24803 6786; GX 6784 6786 6783; GA 6785 6783 6782; GX 6782 24825 24840; GX 24838 24840 6781; GX 6794 6782 24787;
GX 24819 24787 24783; GX 1800 24783 24786; GX 24825 24792 6779; GA 6779 6780 6778; GX 6778 6795 24790; GX 6778 6786 6777;
GA 6777 1807 6763; GA 6777 6809 6754; GX 24790 6792 24785; GX 6784 6778 6776; GX 24785 24786 6769; GA 6769 6801 6759;
GX 1802 24783 24782; GX 6778 24837 24791; GA 6786 6776 6775; GX 6775 6793 24822].
(** aes128_with_ks.txt:16754-17003 *)
Definition aes_enc_file_g67 : list gate := [
GX 6775 6783 6773; GX 1806 24822 24830; GX 24822 24843 6767; GA 6767 6804 6765; GX 6759 6765 24833; GA 6767 6808 6756;
GX 24830 24791 6774; GA 6774 6803 6764; GA 6774 6805 6755; GA 6781 6773 6772; GX 6772 6785 6771; GX 6772 6796 24789;
GX 6772 24840 24784; GX 24830 24789 24781; GX 24812 24781 24788; GX 24781 24782 6766; GA 6766 6814 6749; GA 6766 6799 6758;
GX 6758 24833 24806; GX 24839 24784 6768; GX 24785 24788 6770; GA 6770 6811 6748; GA 6770 6802 6757; GA 6768 6798 6762;
GX 6759 6762 24804; GX 6762 6765 24828; GI 24828 24799; GA 6771 6810 6761; GX 6758 6761 24827; GA 6781 6800 6760;
GX 6760 6763 24835; GX 24835 24799 24810; GA 6768 6813 6753; GX 6753 6757 24829; GX 24833 24829 24801; GX 24827 24829 24841;
GX 6760 24841 24807; GA 6771 6806 6752; GA 6781 6807 6751; GX 6751 6763 24834; GX 6754 24834 24797; GA 6769 6812 6750;
GX 6748 6750 24800; GX 24800 24801 24844; GX 24844 24834 6815; GX 6749 6750 24816; GX 6752 24816 24836; GX 6753 24836 24809;
GX 24809 24810 24808; GX 24808 24060 16251; GX 16251 16189 16181; GX 24468 16181 29267; GX 29267 871 2815; GX 16114 16251 16112;
GX 16251 16196 15997; GX 24128 15997 29275; GX 29275 879 2807; GX 29416 24808 15918; GX 6755 24816 24821; GX 6756 24821 24826;
GX 24827 24826 24805; GX 6764 24826 24831; GX 6761 24831 24842; GX 24835 24842 29411; GX 29411 29418 16245; GX 16275 16245 29270;
GX 29270 868 2812; GX 16250 16245 16147; GX 16147 16148 16146; GI 16146 29278; GX 29278 876 2804; GX 16107 16245 16104;
GX 29411 15921 15928; GX 24831 24806 6816; GX 24828 24842 29412; GX 29412 29419 16243; GX 16273 16243 29271; GX 29271 867 2811;
GX 16110 16243 16129; GX 16129 16130 29279; GX 29279 875 2803; GX 29412 29405 16122; GX 16121 16122 29288; GX 29288 882 2794;
GX 16244 16243 16103; GX 24836 24807 6817; GI 6817 29409; GX 29409 29416 16249; GX 16277 16249 29268; GX 29268 870 2814;
GX 29417 29409 16124; GX 16123 16124 29285; GX 29285 885 2797; GX 16250 16249 16111; GX 16253 16249 15980; GX 15980 15981 15979;
GI 15979 29276; GX 29276 878 2806; GX 24799 24821 24798; GX 24804 24805 29415; GX 29408 29415 16188; GX 29415 29422 16197;
GX 29415 16126 29282; GX 29282 872 2800; GX 2803 2800 6602; GX 16253 16188 16125; GX 24060 16125 29283; GX 29283 887 2799;
GX 16253 16197 16115; GX 24808 16115 29291; GX 29291 895 2791; GI 16197 16106; GX 16106 29409 16113; GX 16112 16113 29292;
GX 29292 894 2790; GX 16106 29411 16109; GX 16106 29412 16105; GX 16104 16105 29295; GX 29295 891 2787; GX 16188 29400 16014;
GX 16014 16015 29274; GX 29274 864 2808; GX 2808 2814 6673; GX 16188 29419 15929; GI 15929 15927; GX 15927 15928 16272;
GX 16272 16246 29287; GX 29287 883 2795; GX 16188 29418 15923; GX 16188 24468 15917; GX 15917 15918 16276; GX 16276 16252 29284;
GX 29284 886 2798; GX 2798 2797 25104; GX 2800 2806 6603; GX 2797 2795 6534; GI 6816 29414; GX 29414 29421 16240;
GX 16244 16240 16127; GX 29400 16127 29281; GX 29281 873 2801; GX 2807 2801 25024; GX 16189 29414 16116; GX 16116 16117 29290;
GX 29290 880 2792; GX 2792 2797 6531; GX 2795 2792 6532; GX 6532 25104 6528; GX 16240 16188 16099; GX 29401 16099 29298;
GX 29298 888 2784; GI 16240 16036; GX 16036 29399 16034; GX 16034 16035 16033; GI 16033 29273; GX 29273 865 2809;
GX 2811 2809 24950; GX 2794 2792 25084; GX 2792 2798 6533; GX 2787 2784 6462; GI 6815 29413; GX 29413 29420 16241;
GX 16246 16241 16128; GX 29399 16128 29280; GX 29280 874 2802; GX 2802 25024 6600; GX 29413 16053 16119; GX 16118 16119 29289;
GX 29289 881 2793; GX 29413 16103 29296; GX 29296 890 2786; GX 16242 16241 16100; GX 29414 16100 29297; GX 29297 889 2785;
GX 2791 2785 25160; GX 2787 2785 25154; GX 25154 2786 25119; GI 16241 16054; GX 16054 29398 16051; GX 16051 16052 29272;
GX 29272 866 2810; GX 2806 6600 6596; GA 6596 6600 6583; GX 2786 25160 6460; GX 24950 2810 24915; GX 2791 25119 6459;
GA 6459 2791 6445; GX 2815 24915 6669; GA 6669 2815 6655; GX 24797 24798 24796; GI 24796 24845; GX 24845 24841 29410;
GX 29410 29417 16247; GX 16252 16247 16164; GX 29396 16164 29277; GX 29277 877 2805; GX 2806 2805 25036; GX 2804 2805 24999;
GX 2805 2803 6604; GX 2800 2805 6601; GX 29410 16111 29293; GX 29293 893 2789; GX 2790 2789 25172; GX 2784 2789 6461;
GX 16110 16247 16108; GX 16108 16109 29294; GX 29294 892 2788; GX 16247 29416 16101; GX 16101 16102 29269; GX 29269 869 2813;
GX 2808 2813 6671; GX 2812 2813 24931; GX 2813 2811 6674; GX 29410 29403 15924; GX 15923 15924 16274; GX 16274 16248 29286;
GX 29286 884 2796; GX 2796 2797 25067; GX 2789 2787 6464; GX 6602 25036 6598; GX 2788 2789 25135; GX 2814 2812 24947;
GX 2813 24947 24949; GX 2809 24949 6661; GX 2810 24949 6658; GA 6673 6658 6654; GX 2810 2808 24948; GX 24948 6674 6659;
GA 6674 6659 6650; GX 6654 24948 24954; GX 2815 2809 24956; GX 24948 24956 6667; GX 24956 24949 6660; GA 6667 6660 6652;
GX 2811 2808 6672; GA 6672 6661 6651; GX 6651 24949 24951; GX 6650 6651 24930; GX 24930 24931 24982; GX 24982 24954 24979;
GX 24947 6672 6664; GX 2815 6664 6663; GX 2814 2813 24968; GX 6672 24968 6668; GX 24968 6667 6665; GA 6668 6664 6657;
GX 6657 24950 24955; GA 6665 6663 6656; GX 6650 6656 24960; GX 24955 24951 24961].
(** aes128_with_ks.txt:17004-17253 *)
Definition aes_enc_file_g68 : list gate := [
GX 2810 24956 6670; GX 2814 6670 6666; GA 6666 6670 6653; GX 6653 24979 6647; GX 2808 24960 24975; GX 24975 24961 6648;
GA 6648 6647 6644; GX 6462 25172 6458; GX 2784 2790 6463; GX 2790 6460 6456; GA 6456 6460 6443; GX 2790 2788 25151;
GX 2789 25151 25153; GX 2786 25153 6448; GX 25151 6462 6454; GX 2791 6454 6453; GA 6458 6454 6447; GX 6447 25154 25159;
GA 6463 6448 6444; GX 25160 25153 6450; GX 2785 25153 6451; GA 6462 6451 6441; GX 6441 25153 25155; GX 25159 25155 25165;
GX 2786 2784 25152; GX 25152 25160 6457; GX 6444 25152 25158; GA 6457 6450 6442; GX 25152 6464 6449; GA 6464 6449 6440;
GX 6440 6441 25134; GX 25134 25135 25186; GX 25186 25158 25183; GX 25154 25152 25120; GX 25151 25120 6452; GA 6461 6452 6439;
GX 6439 6445 25163; GX 2786 25163 25178; GX 6439 6442 25157; GX 6440 25157 25177; GX 6443 25177 25133; GX 25158 25157 25143;
GX 25155 25143 6436; GX 2790 25133 6430; GX 6443 25183 6437; GX 25172 6457 6455; GA 6455 6453 6446; GX 6440 6446 25164;
GX 25164 25163 25142; GX 25152 25142 6435; GX 2784 25164 25179; GX 25179 25165 6438; GA 6438 6437 6434; GX 6434 25178 25132;
GX 6434 6436 6433; GX 25165 25132 6429; GA 6429 6430 6428; GX 6428 6436 6427; GA 6427 2791 6413; GX 6434 6428 6426;
GA 6436 6426 6425; GX 6425 6443 25162; GX 2790 25162 25170; GA 6435 6433 6432; GX 6444 6432 25127; GX 25159 25127 25123;
GX 2784 25123 25126; GX 2786 25123 25122; GX 6428 6445 25130; GX 25130 6442 25125; GX 25125 25126 6419; GA 6419 6451 6409;
GA 6419 6462 6400; GX 6425 6433 6423; GX 6428 25177 25131; GX 25170 25131 6424; GA 6424 6455 6405; GA 6427 6459 6404;
GA 6424 6453 6414; GX 6432 25165 25180; GX 25178 25180 6431; GA 6431 6423 6422; GX 6422 6446 25129; GX 6422 6435 6421;
GA 6421 6456 6402; GA 6431 6457 6401; GX 25170 25129 25121; GX 25152 25121 25128; GX 25121 25122 6416; GX 25125 25128 6420;
GA 6416 6464 6399; GA 6420 6461 6398; GX 6398 6400 25140; GX 6401 6413 25174; GX 6404 25174 25137; GA 6421 6460 6411;
GX 6399 6400 25156; GX 6405 25156 25161; GX 6402 25156 25176; GA 6431 6450 6410; GX 6410 6413 25175; GA 6416 6449 6408;
GX 6408 6411 25167; GX 6422 25180 25124; GX 25179 25124 6418; GA 6418 6463 6403; GX 6403 25176 25149; GA 6418 6448 6412;
GX 6409 6412 25144; GA 6420 6452 6407; GX 6403 6407 25169; GX 25167 25169 25181; GX 6410 25181 25147; GX 25176 25147 6467;
GI 6467 29176; GX 25162 25183 6417; GA 6417 6454 6415; GX 6412 6415 25168; GX 6409 6415 25173; GX 25173 25169 25141;
GI 25168 25139; GX 25175 25139 25150; GX 25149 25150 25148; GX 25139 25161 25138; GX 25137 25138 25136; GI 25136 25185;
GX 6408 25173 25146; GX 25185 25181 29177; GX 25140 25141 25184; GX 25184 25174 6465; GI 6465 29180; GA 6417 6458 6406;
GX 6406 25161 25166; GX 25167 25166 25145; GX 25144 25145 29182; GX 6414 25166 25171; GX 25171 25146 6466; GI 6466 29181;
GX 29182 29181 16378; GX 6411 25171 25182; GX 25168 25182 29179; GX 25175 25182 29178; GX 2798 2796 25083; GX 25083 6532 6524;
GA 6528 6524 6517; GX 24950 24948 24916; GX 24947 24916 6662; GA 6671 6662 6649; GX 6649 6652 24953; GX 6649 6655 24959;
GX 2810 24959 24974; GX 6644 24974 24928; GX 24961 24928 6639; GX 24960 24959 24938; GX 24948 24938 6645; GX 24954 24953 24939;
GX 24951 24939 6646; GX 6650 24953 24973; GX 6653 24973 24929; GX 2814 24929 6640; GA 6639 6640 6638; GX 6638 6646 6637;
GX 6638 24973 24927; GX 6638 6655 24926; GA 6637 6669 6614; GA 6637 2815 6623; GX 6644 6638 6636; GA 6646 6636 6635;
GX 6635 6653 24958; GX 24958 24979 6627; GA 6627 6664 6625; GA 6627 6668 6616; GX 2814 24958 24966; GX 24966 24927 6634;
GA 6634 6663 6624; GA 6634 6665 6615; GX 6644 6646 6643; GA 6645 6643 6642; GX 6635 6643 6633; GX 6654 6642 24923;
GX 24955 24923 24919; GX 2810 24919 24918; GX 2808 24919 24922; GX 6642 24961 24976; GX 24974 24976 6641; GA 6641 6660 6620;
GA 6641 6633 6632; GX 6632 24976 24920; GX 24975 24920 6628; GA 6628 6673 6613; GA 6641 6667 6611; GA 6628 6658 6622;
GX 6622 6625 24964; GI 24964 24935; GX 6632 6645 6631; GA 6631 6670 6621; GA 6631 6666 6612; GX 6611 6623 24970;
GX 6614 24970 24933; GX 6620 6623 24971; GX 24971 24935 24946; GX 24926 6652 24921; GX 24921 24922 6629; GA 6629 6661 6619;
GX 6619 6625 24969; GA 6629 6672 6610; GX 6619 6622 24940; GX 6632 6656 24925; GX 24966 24925 24917; GX 24917 24918 6626;
GA 6626 6674 6609; GA 6626 6659 6618; GX 6618 6621 24963; GX 24948 24917 24924; GX 24921 24924 6630; GA 6630 6671 6608;
GA 6630 6662 6617; GX 6609 6610 24952; GX 6612 24952 24972; GX 6613 24972 24945; GX 24945 24946 24944; GX 6615 24952 24957;
GX 6616 24957 24962; GX 6613 6617 24965; GX 6624 24962 24967; GX 6621 24967 24978; GX 24964 24978 29242; GX 24971 24978 29241;
GX 24963 24965 24977; GX 6620 24977 24943; GX 24972 24943 6677; GI 6677 29239; GX 6618 24969 24942; GX 24967 24942 6676;
GI 6676 29244; GX 24963 24962 24941; GX 24940 24941 29245; GX 6608 6610 24936; GX 24969 24965 24937; GX 24936 24937 24980;
GX 24980 24970 6675; GI 6675 29243; GX 24935 24957 24934; GX 24933 24934 24932; GI 24932 24981; GX 24981 24977 29240;
GX 2799 6524 6523; GX 25084 6534 6519; GA 6534 6519 6510; GX 2797 25083 25085].
(** aes128_with_ks.txt:17254-17503 *)
Definition aes_enc_file_g69 : list gate := [
GX 2793 25085 6521; GX 2794 25085 6518; GA 6532 6521 6511; GX 6510 6511 25066; GX 25066 25067 25118; GA 6533 6518 6514;
GX 6514 25084 25090; GX 25118 25090 25115; GX 2795 2793 25086; GX 25086 2794 25051; GX 25086 25084 25052; GX 25083 25052 6522;
GX 2799 25051 6529; GA 6529 2799 6515; GA 6531 6522 6509; GX 6509 6515 25095; GX 2794 25095 25110; GX 6511 25085 25087;
GX 6517 25086 25091; GX 25091 25087 25097; GX 2799 2793 25092; GX 25084 25092 6527; GX 2794 25092 6530; GX 25092 25085 6520;
GA 6527 6520 6512; GX 6509 6512 25089; GX 6510 25089 25109; GX 25090 25089 25075; GX 25087 25075 6506; GX 2798 6530 6526;
GA 6526 6530 6513; GX 6513 25109 25065; GX 6513 25115 6507; GX 2798 25065 6500; GX 25104 6527 6525; GA 6525 6523 6516;
GX 6510 6516 25096; GX 2792 25096 25111; GX 25111 25097 6508; GA 6508 6507 6504; GX 25096 25095 25074; GX 6504 25110 25064;
GX 25097 25064 6499; GA 6499 6500 6498; GX 6498 6515 25062; GX 25062 6512 25057; GX 6498 6506 6497; GA 6497 6529 6474;
GX 6504 6498 6496; GA 6497 2799 6483; GA 6506 6496 6495; GX 6498 25109 25063; GX 6504 6506 6503; GX 6495 6503 6493;
GX 25084 25074 6505; GA 6505 6503 6502; GX 6502 25097 25112; GX 25110 25112 6501; GA 6501 6527 6471; GA 6501 6493 6492;
GX 6514 6502 25059; GX 25091 25059 25055; GX 2792 25055 25058; GX 2794 25055 25054; GX 6492 6505 6491; GX 6492 25112 25056;
GX 25111 25056 6488; GA 6488 6518 6482; GA 6488 6533 6473; GX 6471 6483 25106; GX 6474 25106 25069; GA 6491 6530 6481;
GA 6501 6520 6480; GX 6480 6483 25107; GX 6492 6516 25061; GX 25057 25058 6489; GA 6489 6532 6470; GA 6489 6521 6479;
GX 6479 6482 25076; GA 6491 6526 6472; GX 6495 6513 25094; GX 25094 25115 6487; GA 6487 6524 6485; GA 6487 6528 6476;
GX 6479 6485 25105; GX 6482 6485 25100; GI 25100 25071; GX 25107 25071 25082; GX 2798 25094 25102; GX 25102 25063 6494;
GA 6494 6523 6484; GA 6494 6525 6475; GX 25102 25061 25053; GX 25053 25054 6486; GA 6486 6534 6469; GX 25084 25053 25060;
GX 25057 25060 6490; GA 6490 6522 6477; GA 6490 6531 6468; GX 6468 6470 25072; GX 6473 6477 25101; GX 25105 25101 25073;
GX 25072 25073 25116; GX 25116 25106 6535; GI 6535 29201; GA 6486 6519 6478; GX 6478 6481 25099; GX 25099 25101 25113;
GX 6480 25113 25079; GX 6478 25105 25078; GX 6469 6470 25088; GX 6472 25088 25108; GX 25108 25079 6537; GI 6537 29197;
GX 6473 25108 25081; GX 25081 25082 25080; GX 6475 25088 25093; GX 25071 25093 25070; GX 25069 25070 25068; GI 25068 25117;
GX 6476 25093 25098; GX 6484 25098 25103; GX 6481 25103 25114; GX 25107 25114 29199; GX 25103 25078 6536; GI 6536 29202;
GX 25117 25113 29198; GX 25100 25114 29200; GX 25099 25098 25077; GX 25076 25077 29203; GX 24250 24251 24302; GX 24302 24274 24299;
GX 7353 24299 7347; GA 7348 7347 7344; GX 7344 7346 7343; GA 7345 7343 7342; GX 7354 7342 24243; GX 24275 24243 24239;
GX 1864 24239 24242; GX 1866 24239 24238; GX 7342 24281 24296; GX 24294 24296 7341; GA 7341 7360 7320; GA 7341 7367 7311;
GX 7344 24294 24248; GX 24281 24248 7339; GX 7353 24293 24249; GX 1870 24249 7340; GA 7339 7340 7338; GX 7344 7338 7336;
GX 7338 7346 7337; GX 7338 7355 24246; GX 7338 24293 24247; GA 7337 1871 7323; GX 24246 7352 24241; GX 24241 24242 7329;
GA 7329 7361 7319; GA 7329 7372 7310; GA 7337 7369 7314; GX 7311 7323 24290; GX 7320 7323 24291; GA 7346 7336 7335;
GX 7335 7343 7333; GA 7341 7333 7332; GX 7332 24296 24240; GX 7332 7345 7331; GA 7331 7366 7312; GA 7331 7370 7321;
GX 7335 7353 24278; GX 24295 24240 7328; GA 7328 7358 7322; GX 7319 7322 24260; GA 7328 7373 7313; GX 7332 7356 24245;
GX 1870 24278 24286; GX 24286 24245 24237; GX 24237 24238 7326; GX 24268 24237 24244; GX 24241 24244 7330; GA 7330 7362 7317;
GX 24286 24247 7334; GA 7334 7363 7324; GA 7334 7365 7315; GA 7326 7374 7309; GX 7309 7310 24272; GA 7330 7371 7308;
GX 7308 7310 24256; GX 7313 7317 24285; GA 7326 7359 7318; GX 7318 7321 24283; GX 7312 24272 24292; GX 24283 24285 24297;
GX 7315 24272 24277; GX 7313 24292 24265; GX 24278 24299 7327; GA 7327 7364 7325; GA 7327 7368 7316; GX 7316 24277 24282;
GX 24283 24282 24261; GX 7322 7325 24284; GX 7324 24282 24287; GX 7319 7325 24289; GX 24289 24285 24257; GX 24256 24257 24300;
GX 24300 24290 7375; GI 7375 29469; GX 29469 16006 16005; GX 24260 24261 29471; GX 29464 29471 16184; GI 16184 15959;
GX 7321 24287 24298; GX 24291 24298 29467; GX 29467 15955 15963; GX 24284 24298 29468; GX 29468 29461 16009; GI 24284 24255;
GX 24291 24255 24266; GX 24265 24266 24264; GX 24264 23924 15952; GX 7320 24297 24263; GX 24292 24263 7377; GI 7377 29465;
GX 29465 15949 16011; GX 7318 24289 24262; GX 24287 24262 7376; GI 7376 29470; GX 7314 24290 24253; GX 24255 24277 24254;
GX 24253 24254 24252; GI 24252 24301; GX 24301 24297 29466; GX 29466 15958 15957; GA 6836 6869 6828; GX 6828 6831 24759;
GX 6828 24765 24738; GX 24763 24738 6886; GI 6886 29435; GX 29428 29435 16228; GX 29435 29427 16091; GX 16090 16091 29305;
GX 29305 833 2777; GX 2779 2777 25222; GX 2783 2777 25228; GI 16228 16068; GX 16068 15933 16075; GX 29443 16075 29314;
GX 29314 840 2768; GX 16068 29449 16065; GX 16228 16227 16045; GX 29442 16045 29329].
(** aes128_with_ks.txt:17504-17753 *)
Definition aes_enc_file_g70 : list gate := [
GX 29329 857 2753; GX 2770 2768 25288; GX 2755 2753 25426; GX 24759 24758 24737; GX 24736 24737 29436; GX 29436 29443 16186;
GX 29429 29436 16194; GX 16186 29450 16088; GX 16088 16089 29306; GX 29306 832 2776; GX 2779 2776 6392; GX 16237 16194 16087;
GX 24400 16087 29307; GX 29307 847 2775; GI 16194 16080; GX 16080 29423 16085; GX 16084 16085 29308; GX 29308 846 2774;
GX 2768 2774 6323; GX 16080 29425 16082; GX 16080 29426 16079; GX 16078 16079 29311; GX 29311 843 2771; GX 16239 16186 16074;
GX 24332 16074 29315; GX 29315 855 2767; GX 29436 29435 16064; GX 16063 16064 29322; GX 29322 848 2760; GX 16226 16186 16044;
GX 29429 16044 29330; GX 29330 856 2752; GX 2755 2752 6182; GI 16186 15942; GX 15942 29447 15945; GX 15945 15946 16266;
GX 16266 16232 29319; GX 29319 851 2763; GX 15942 29446 15939; GX 16186 29444 15934; GX 15934 15935 16270; GX 2763 2760 6252;
GX 2771 2768 6322; GA 6840 6872 6827; GX 6823 6827 24761; GX 24765 24761 24733; GX 24759 24761 24773; GX 24777 24773 29431;
GX 29424 29431 16236; GI 29431 15941; GX 15941 29423 16097; GX 16096 16097 16095; GI 16095 29301; GX 29301 837 2781;
GX 2776 2781 6391; GX 2780 2781 25203; GI 16236 16073; GX 16073 16231 16081; GX 16081 16082 29310; GX 29310 844 2772;
GX 16073 29445 16071; GX 16236 16235 16058; GX 29438 16058 29325; GX 29325 861 2757; GX 29438 15941 15940; GX 15939 15940 16268;
GX 16268 16234 29318; GX 29318 852 2764; GX 2756 2757 25407; GX 2774 2772 25287; GX 25287 6322 6314; GX 24732 24733 24776;
GX 24776 24766 6885; GX 6830 24773 24739; GX 24768 24739 6887; GI 6887 29430; GX 29423 29430 16238; GX 16270 16238 29316;
GX 29316 854 2766; GX 2766 2764 25355; GX 2760 2766 6253; GX 16238 16233 16083; GX 29424 16083 29309; GX 29309 845 2773;
GX 2772 2773 25271; GI 29430 15932; GX 29437 15932 16072; GX 16071 16072 29317; GX 29317 853 2765; GX 2765 25355 25357;
GI 16238 16061; GX 16061 16237 16059; GX 16059 16060 29324; GX 29324 862 2758; GX 2758 2757 25444; GX 2758 2756 25423;
GX 15932 24400 15931; GX 15930 15931 16271; GX 16271 16235 29300; GX 29300 838 2782; GX 2776 2782 6393; GX 2782 2781 25240;
GX 2782 2780 25219; GX 2781 25219 25221; GX 2777 25221 6381; GX 25219 6392 6384; GX 25228 25221 6380; GA 6392 6381 6371;
GX 2765 2763 6254; GX 2768 2773 6321; GX 2773 2771 6324; GX 2757 25423 25425; GX 2766 2765 25376; GX 6252 25376 6248;
GX 2760 2765 6251; GX 2773 25287 25289; GX 2770 25289 6308; GX 2764 2765 25339; GX 25288 6324 6309; GA 6324 6309 6300;
GX 6392 25240 6388; GA 6388 6384 6377; GX 6371 25221 25223; GX 2774 2773 25308; GX 6322 25308 6318; GA 6318 6314 6307;
GX 2783 6384 6383; GX 25355 6252 6244; GX 2767 6244 6243; GA 6248 6244 6237; GX 2775 6314 6313; GX 6377 25222 25227;
GX 25227 25223 25233; GX 2781 2779 6394; GA 6323 6308 6304; GX 2753 25425 6171; GA 6182 6171 6161; GX 6161 25425 25427;
GX 6182 25444 6178; GX 2752 2758 6183; GX 6304 25288 25294; GX 2752 2757 6181; GI 6885 29434; GX 29427 29434 16230;
GI 29434 16067; GX 16067 29426 16093; GX 16092 16093 29304; GX 29304 834 2778; GX 2778 2776 25220; GX 25220 25228 6387;
GX 2778 25228 6390; GX 2782 6390 6386; GX 16230 16226 16076; GX 29428 16076 29313; GX 29313 841 2769; GX 2769 25289 6311;
GX 2771 2769 25290; GX 25290 2770 25255; GX 25290 25288 25256; GX 16230 29448 16069; GX 16069 16070 29320; GX 29320 850 2762;
GX 2762 25357 6238; GX 29441 16067 16066; GX 16065 16066 29321; GX 29321 849 2761; GX 16230 16229 16046; GX 29441 16046 29328;
GX 29328 858 2754; GX 2754 2752 25424; GX 2775 25255 6319; GA 6319 2775 6305; GX 25240 6387 6385; GX 25426 2754 25391;
GX 2761 25357 6241; GX 2778 25221 6378; GA 6393 6378 6374; GX 2767 2761 25364; GX 2759 25391 6179; GA 6179 2759 6165;
GX 2763 2761 25358; GX 6237 25358 25363; GA 6252 6241 6231; GX 6231 25357 25359; GX 25363 25359 25369; GA 6253 6238 6234;
GX 2762 2760 25356; GX 25358 25356 25324; GX 25356 6254 6239; GA 6254 6239 6230; GX 6230 6231 25338; GX 6234 25356 25362;
GX 25355 25324 6242; GX 25338 25339 25390; GX 25390 25362 25387; GX 25287 25256 6312; GA 6321 6312 6299; GX 6307 25290 25295;
GX 25364 25357 6240; GX 6374 25220 25226; GX 25356 25364 6247; GA 6247 6240 6232; GX 25376 6247 6245; GA 6245 6243 6236;
GX 6230 6236 25368; GX 25426 25424 25392; GX 25423 25392 6172; GA 6181 6172 6159; GX 2760 25368 25383; GX 25383 25369 6228;
GX 2762 25364 6250; GX 2766 6250 6246; GA 6246 6250 6233; GX 6233 25387 6227; GX 25220 6394 6379; GA 6394 6379 6370;
GX 6370 6371 25202; GX 25202 25203 25254; GX 25254 25226 25251; GX 2754 25425 6168; GA 6183 6168 6164; GX 6164 25424 25430;
GA 6228 6227 6224; GX 2775 2769 25296; GX 25296 25289 6310; GX 25288 25296 6317; GA 6317 6310 6302; GX 6299 6302 25293;
GX 6300 25293 25313; GX 25294 25293 25279; GX 25308 6317 6315; GA 6315 6313 6306; GX 6300 6306 25300; GX 2768 25300 25315;
GX 2770 25296 6320; GX 2774 6320 6316; GA 6316 6320 6303; GX 25358 2762 25323; GX 2767 25323 6249; GA 6249 2767 6235;
GA 6251 6242 6229; GX 6229 6232 25361; GX 6229 6235 25367; GX 2762 25367 25382; GX 6230 25361 25381; GX 6233 25381 25337;
GX 2766 25337 6220; GX 25362 25361 25347; GX 25359 25347 6226; GX 6224 6226 6223].
(** aes128_with_ks.txt:17754-18003 *)
Definition aes_enc_file_g71 : list gate := [
GX 6299 6305 25299; GX 25300 25299 25278; GX 25288 25278 6295; GX 2770 25299 25314; GX 25368 25367 25346; GX 25356 25346 6225;
GA 6225 6223 6222; GX 6222 25369 25384; GX 25382 25384 6221; GA 6221 6240 6200; GA 6221 6247 6191; GX 6234 6222 25331;
GX 25363 25331 25327; GX 2762 25327 25326; GX 2760 25327 25330; GX 6303 25313 25269; GX 2774 25269 6290; GA 6322 6311 6301;
GX 6301 25289 25291; GX 25291 25279 6296; GX 25295 25291 25301; GX 25315 25301 6298; GX 6300 6301 25270; GX 25270 25271 25322;
GX 25322 25294 25319; GX 6303 25319 6297; GA 6298 6297 6294; GX 6294 25314 25268; GX 6294 6296 6293; GA 6295 6293 6292;
GX 6292 25301 25316; GX 6304 6292 25263; GX 25314 25316 6291; GA 6291 6310 6270; GA 6291 6317 6261; GX 25301 25268 6289;
GA 6289 6290 6288; GX 6294 6288 6286; GA 6296 6286 6285; GX 6285 6303 25298; GX 2774 25298 25306; GX 6288 6296 6287;
GA 6287 2775 6273; GA 6287 6319 6264; GX 6285 6293 6283; GA 6291 6283 6282; GX 6282 25316 25260; GX 6282 6295 6281;
GA 6281 6320 6271; GX 6288 6305 25266; GX 25266 6302 25261; GA 6281 6316 6262; GX 6270 6273 25311; GX 6282 6306 25265;
GX 6261 6273 25310; GX 25298 25319 6277; GA 6277 6314 6275; GA 6277 6318 6266; GX 6264 25310 25273; GX 6288 25313 25267;
GX 25306 25267 6284; GA 6284 6313 6274; GA 6284 6315 6265; GX 25306 25265 25257; GX 25288 25257 25264; GX 25261 25264 6280;
GA 6280 6312 6267; GA 6280 6321 6258; GX 25295 25263 25259; GX 2768 25259 25262; GX 25261 25262 6279; GA 6279 6322 6260;
GX 6258 6260 25276; GA 6279 6311 6269; GX 6269 6275 25309; GX 25315 25260 6278; GA 6278 6308 6272; GX 6272 6275 25304;
GI 25304 25275; GX 6269 6272 25280; GX 25311 25275 25286; GA 6278 6323 6263; GX 6263 6267 25305; GX 25309 25305 25277;
GX 25276 25277 25320; GX 25320 25310 6325; GI 6325 29250; GX 29243 29250 16565; GI 29250 16516; GX 16516 29242 16542;
GX 2770 25259 25258; GX 25257 25258 6276; GA 6276 6324 6259; GA 6276 6309 6268; GX 6268 6271 25303; GX 25303 25305 25317;
GX 6270 25317 25283; GX 6259 6260 25292; GX 6262 25292 25312; GX 25312 25283 6327; GI 6327 29246; GX 29239 29246 16573;
GX 6263 25312 25285; GX 25285 25286 25284; GX 24944 25284 16574; GX 6265 25292 25297; GX 6266 25297 25302; GX 25303 25302 25281;
GX 25280 25281 29252; GX 29245 29252 16553; GX 16553 29239 16535; GX 16553 29241 16532; GX 16553 29242 16530; GX 6268 25309 25282;
GX 6274 25302 25307; GX 25307 25282 6326; GX 6271 25307 25318; GX 25311 25318 29248; GX 29241 29248 16569; GI 29248 16333;
GI 6326 29251; GX 29244 29251 16563; GX 29251 29243 16540; GI 16563 16517; GX 29252 29251 16513; GX 25304 25318 29249;
GX 29242 29249 16567; GX 25275 25297 25274; GX 25273 25274 25272; GI 25272 25321; GX 25321 25317 29247; GX 29240 29247 16571;
GX 25222 25220 25188; GX 25219 25188 6382; GA 6391 6382 6369; GX 25222 2778 25187; GX 2783 25187 6389; GA 6385 6383 6376;
GX 6370 6376 25232; GX 2776 25232 25247; GX 25247 25233 6368; GA 6389 2783 6375; GX 6369 6375 25231; GX 2778 25231 25246;
GX 25232 25231 25210; GX 25220 25210 6365; GA 6386 6390 6373; GX 6373 25251 6367; GA 6387 6380 6372; GX 6369 6372 25225;
GX 25226 25225 25211; GX 25223 25211 6366; GX 6370 25225 25245; GX 6373 25245 25201; GX 2782 25201 6360; GA 6368 6367 6364;
GX 6364 6366 6363; GX 6364 25246 25200; GX 25233 25200 6359; GA 6359 6360 6358; GX 6364 6358 6356; GX 6358 25245 25199;
GA 6366 6356 6355; GX 6355 6363 6353; GX 6355 6373 25230; GX 2782 25230 25238; GX 25230 25251 6347; GA 6347 6384 6345;
GX 25238 25199 6354; GX 6358 6375 25198; GX 25198 6372 25193; GX 6358 6366 6357; GA 6357 6389 6334; GA 6365 6363 6362;
GX 6362 25233 25248; GX 25246 25248 6361; GX 6374 6362 25195; GX 25227 25195 25191; GX 2776 25191 25194; GX 25193 25194 6349;
GA 6361 6353 6352; GX 6352 6365 6351; GX 6352 25248 25192; GX 25247 25192 6348; GA 6348 6378 6342; GX 6352 6376 25197;
GX 25238 25197 25189; GX 2778 25191 25190; GX 6342 6345 25236; GI 25236 25207; GX 25220 25189 25196; GX 25193 25196 6350;
GA 6350 6382 6337; GA 6350 6391 6328; GA 6348 6393 6333; GX 6333 6337 25237; GX 25189 25190 6346; GA 6346 6394 6329;
GA 6354 6383 6344; GA 6357 2783 6343; GA 6351 6390 6341; GA 6361 6380 6340; GX 6340 6343 25243; GX 25243 25207 25218;
GA 6349 6381 6339; GX 6339 6342 25212; GX 6339 6345 25241; GX 25241 25237 25209; GA 6346 6379 6338; GX 6338 6341 25235;
GX 25235 25237 25249; GX 6340 25249 25215; GX 6338 25241 25214; GA 6347 6388 6336; GA 6354 6385 6335; GA 6351 6386 6332;
GA 6361 6387 6331; GX 6331 6343 25242; GX 6334 25242 25205; GA 6349 6392 6330; GX 6329 6330 25224; GX 6335 25224 25229;
GX 25207 25229 25206; GX 25205 25206 25204; GI 25204 25253; GX 6336 25229 25234; GX 25235 25234 25213; GX 25212 25213 29161;
GX 29161 29182 16552; GI 16552 16285; GX 25253 25249 29156; GX 16285 29156 16282; GX 6344 25234 25239; GX 25239 25214 6396;
GI 6396 29160; GX 6332 25224 25244; GX 25244 25215 6397; GX 6333 25244 25217; GX 25217 25218 25216; GX 25148 25216 16279;
GI 6397 29155; GX 6341 25239 25250; GX 25243 25250 29157; GX 25236 25250 29158; GX 16552 29157 16288; GX 6328 6330 25208;
GX 25208 25209 25252; GX 25252 25242 6395; GI 6395 29159; GX 6224 25382 25336].
(** aes128_with_ks.txt:18004-18253 *)
Definition aes_enc_file_g72 : list gate := [
GX 25369 25336 6219; GA 6219 6220 6218; GX 6224 6218 6216; GX 6218 6226 6217; GA 6217 2767 6203; GX 6191 6203 25378;
GX 6200 6203 25379; GA 6217 6249 6194; GX 6194 25378 25341; GX 6218 6235 25334; GX 25334 6232 25329; GX 25329 25330 6209;
GA 6209 6252 6190; GA 6209 6241 6199; GX 6218 25381 25335; GA 6226 6216 6215; GX 6215 6233 25366; GX 2766 25366 25374;
GX 25366 25387 6207; GA 6207 6244 6205; GX 6199 6205 25377; GA 6207 6248 6196; GX 6215 6223 6213; GA 6221 6213 6212;
GX 6212 6236 25333; GX 6212 6225 6211; GA 6211 6250 6201; GA 6211 6246 6192; GX 25374 25333 25325; GX 25356 25325 25332;
GX 25329 25332 6210; GA 6210 6242 6197; GA 6210 6251 6188; GX 25374 25335 6214; GA 6214 6245 6195; GA 6214 6243 6204;
GX 6212 25384 25328; GX 25383 25328 6208; GA 6208 6253 6193; GX 6193 6197 25373; GX 25377 25373 25345; GA 6208 6238 6202;
GX 6199 6202 25348; GX 6202 6205 25372; GI 25372 25343; GX 25379 25343 25354; GX 6188 6190 25344; GX 25344 25345 25388;
GX 25388 25378 6255; GI 6255 29229; GX 25325 25326 6206; GA 6206 6239 6198; GX 6198 6201 25371; GA 6206 6254 6189;
GX 6189 6190 25360; GX 6195 25360 25365; GX 6196 25365 25370; GX 6204 25370 25375; GX 25371 25370 25349; GX 6201 25375 25386;
GX 25372 25386 29228; GX 25379 25386 29227; GX 6192 25360 25380; GX 25371 25373 25385; GX 6200 25385 25351; GX 25348 25349 29231;
GX 6193 25380 25353; GX 25353 25354 25352; GX 25380 25351 6257; GI 6257 29225; GX 6198 25377 25350; GX 25375 25350 6256;
GI 6256 29230; GX 25343 25365 25342; GX 25341 25342 25340; GI 25340 25389; GX 25389 25385 29226; GX 1817 24677 6941;
GA 6952 6941 6931; GX 6930 6931 24658; GX 6931 24677 24679; GX 24679 24667 6926; GX 24658 24659 24710; GX 24710 24682 24707;
GX 24683 24679 24689; GX 24703 24689 6928; GX 6933 24707 6927; GA 6928 6927 6924; GX 6924 6926 6923; GA 6925 6923 6922;
GX 6934 6922 24651; GX 6922 24689 24704; GX 24683 24651 24647; GX 1816 24647 24650; GX 24702 24704 6921; GA 6921 6940 6900;
GX 1818 24647 24646; GA 6921 6947 6891; GX 6924 24702 24656; GX 24689 24656 6919; GA 6919 6920 6918; GX 6924 6918 6916;
GX 6918 6935 24654; GX 6918 24701 24655; GX 24654 6932 24649; GA 6926 6916 6915; GX 6915 6923 6913; GA 6921 6913 6912;
GX 6912 6925 6911; GX 6915 6933 24686; GX 6912 24704 24648; GX 6912 6936 24653; GX 1822 24686 24694; GX 24694 24653 24645;
GX 24694 24655 6914; GX 24676 24645 24652; GX 24649 24652 6910; GA 6911 6946 6892; GA 6910 6942 6897; GA 6914 6945 6895;
GX 24645 24646 6906; GA 6906 6939 6898; GA 6914 6943 6904; GA 6911 6950 6901; GX 6898 6901 24691; GX 24649 24650 6909;
GA 6909 6941 6899; GX 24703 24648 6908; GA 6908 6953 6893; GX 6893 6897 24693; GA 6908 6938 6902; GX 6899 6902 24668;
GX 24691 24693 24705; GX 6900 24705 24671; GX 6918 6926 6917; GA 6917 6949 6894; GA 6917 1823 6903; GX 6891 6903 24698;
GX 6894 24698 24661; GX 6900 6903 24699; GX 24686 24707 6907; GA 6907 6948 6896; GA 6907 6944 6905; GX 6902 6905 24692;
GI 24692 24663; GX 24699 24663 24674; GX 6899 6905 24697; GX 6898 24697 24670; GX 24697 24693 24665; GX 6159 6165 25435;
GX 25423 6182 6174; GA 6178 6174 6167; GX 6167 25426 25431; GX 25431 25427 25437; GX 2759 6174 6173; GX 2803 2801 25018;
GX 25018 2802 24983; GX 2807 24983 6599; GA 6599 2807 6585; GA 7438 7434 7427; GX 7427 24202 24207; GX 24207 24203 24213;
GX 24227 24213 7418; GA 7418 7417 7414; GX 2759 2753 25432; GX 25432 25425 6170; GX 2757 2755 6184; GX 25424 6184 6169;
GA 6184 6169 6160; GX 6160 6161 25406; GX 25406 25407 25458; GX 25458 25430 25455; GX 2754 25432 6180; GX 2758 6180 6176;
GA 6176 6180 6163; GX 6163 25455 6157; GX 25424 25432 6177; GA 6177 6170 6162; GX 25444 6177 6175; GA 6175 6173 6166;
GX 6160 6166 25436; GX 2752 25436 25451; GX 25436 25435 25414; GX 25424 25414 6155; GX 25451 25437 6158; GA 6158 6157 6154;
GX 6159 6162 25429; GX 6160 25429 25449; GX 6163 25449 25405; GX 25430 25429 25415; GX 25427 25415 6156; GX 2758 25405 6150;
GX 2754 25435 25450; GX 6154 25450 25404; GX 25437 25404 6149; GA 6149 6150 6148; GX 6148 25449 25403; GX 6148 6165 25402;
GX 25402 6162 25397; GX 6148 6156 6147; GA 6147 2759 6133; GA 6147 6179 6124; GX 6154 6148 6146; GA 6156 6146 6145;
GX 6145 6163 25434; GX 2758 25434 25442; GX 25442 25403 6144; GA 6144 6175 6125; GA 6144 6173 6134; GX 25434 25455 6137;
GA 6137 6178 6126; GA 6137 6174 6135; GX 6154 6156 6153; GA 6155 6153 6152; GX 6152 25437 25452; GX 6164 6152 25399;
GX 25431 25399 25395; GX 2752 25395 25398; GX 25397 25398 6139; GA 6139 6182 6120; GX 2754 25395 25394; GA 6139 6171 6129;
GX 25450 25452 6151; GA 6151 6170 6130; GA 6151 6177 6121; GX 6130 6133 25447; GX 6145 6153 6143; GA 6151 6143 6142;
GX 6142 25452 25396; GX 6142 6166 25401; GX 25442 25401 25393; GX 25393 25394 6136; GA 6136 6169 6128; GA 6136 6184 6119;
GX 6119 6120 25428; GX 25424 25393 25400; GX 25397 25400 6140; GA 6140 6172 6127; GA 6140 6181 6118; GX 6118 6120 25412;
GX 25451 25396 6138; GA 6138 6183 6123; GX 6123 6127 25441; GA 6138 6168 6132; GX 6132 6135 25440; GX 6129 6132 25416;
GI 25440 25411; GX 25447 25411 25422; GX 6142 6155 6141; GA 6141 6180 6131].
(** aes128_with_ks.txt:18254-18503 *)
Definition aes_enc_file_g73 : list gate := [
GX 6128 6131 25439; GA 6141 6176 6122; GX 6122 25428 25448; GX 6123 25448 25421; GX 25421 25422 25420; GX 25080 25420 16600;
GX 6125 25428 25433; GX 25411 25433 25410; GX 6126 25433 25438; GX 6134 25438 25443; GX 25439 25438 25417; GX 25416 25417 29210;
GX 29203 29210 16558; GI 16558 16413; GX 16413 29197 16423; GX 16413 29199 16419; GX 16413 29200 16412; GX 6129 6135 25445;
GX 6128 25445 25418; GX 25445 25441 25413; GX 25412 25413 25456; GX 25443 25418 6186; GI 6186 29209; GX 29202 29209 16589;
GX 6121 6133 25446; GX 6124 25446 25409; GX 25409 25410 25408; GI 25408 25457; GX 25456 25446 6185; GI 6185 29208;
GX 29201 29208 16590; GI 16590 16457; GX 16589 29208 16453; GX 25439 25441 25453; GX 25457 25453 29205; GX 29198 29205 16596;
GX 6130 25453 25419; GX 25448 25419 6187; GI 6187 29204; GX 29197 29204 16598; GX 16596 29204 16459; GX 6131 25443 25454;
GX 25447 25454 29206; GX 29199 29206 16594; GX 25440 25454 29207; GX 29200 29207 16592; GX 16457 29207 16455; GX 2806 2804 25015;
GX 25015 6602 6594; GX 2807 6594 6593; GA 6598 6594 6587; GX 6587 25018 25023; GX 2802 2800 25016; GX 25016 6604 6589;
GX 25016 25024 6597; GX 25036 6597 6595; GA 6595 6593 6586; GA 6604 6589 6580; GX 25018 25016 24984; GX 25015 24984 6592;
GA 6601 6592 6579; GX 6580 6586 25028; GX 2800 25028 25043; GX 6579 6585 25027; GX 25028 25027 25006; GX 2802 25027 25042;
GX 25016 25006 6575; GX 2805 25015 25017; GX 2801 25017 6591; GA 6602 6591 6581; GX 6581 25017 25019; GX 6580 6581 24998;
GX 24998 24999 25050; GX 2802 25017 6588; GX 25023 25019 25029; GX 25043 25029 6578; GX 25024 25017 6590; GA 6603 6588 6584;
GX 6584 25016 25022; GX 25050 25022 25047; GX 6583 25047 6577; GA 6578 6577 6574; GX 6574 25042 24996; GX 25029 24996 6569;
GA 6597 6590 6582; GX 6579 6582 25021; GX 25022 25021 25007; GX 6580 25021 25041; GX 6583 25041 24997; GX 2806 24997 6570;
GX 25019 25007 6576; GA 6569 6570 6568; GX 6568 25041 24995; GX 6568 6585 24994; GX 24994 6582 24989; GX 6568 6576 6567;
GA 6567 6599 6544; GX 6574 6568 6566; GA 6576 6566 6565; GX 6565 6583 25026; GX 25026 25047 6557; GA 6557 6598 6546;
GX 2806 25026 25034; GX 25034 24995 6564; GA 6564 6595 6545; GA 6567 2807 6553; GA 6557 6594 6555; GA 6564 6593 6554;
GX 6574 6576 6573; GA 6575 6573 6572; GX 6572 25029 25044; GX 6584 6572 24991; GX 25023 24991 24987; GX 2800 24987 24990;
GX 2802 24987 24986; GX 24989 24990 6559; GA 6559 6602 6540; GX 25042 25044 6571; GA 6571 6597 6541; GX 6541 6553 25038;
GX 6544 25038 25001; GA 6559 6591 6549; GX 6549 6555 25037; GA 6571 6590 6550; GX 6550 6553 25039; GX 6565 6573 6563;
GA 6571 6563 6562; GX 6562 6586 24993; GX 25034 24993 24985; GX 25016 24985 24992; GX 24989 24992 6560; GA 6560 6592 6547;
GA 6560 6601 6538; GX 6538 6540 25004; GX 6562 6575 6561; GA 6561 6600 6551; GA 6561 6596 6542; GX 6562 25044 24988;
GX 25043 24988 6558; GA 6558 6603 6543; GX 6543 6547 25033; GX 25037 25033 25005; GX 25004 25005 25048; GX 25048 25038 6605;
GX 24985 24986 6556; GA 6556 6589 6548; GX 6548 6551 25031; GX 25031 25033 25045; GX 6550 25045 25011; GX 6548 25037 25010;
GA 6556 6604 6539; GX 6539 6540 25020; GX 6545 25020 25025; GX 6542 25020 25040; GX 25040 25011 6607; GX 6543 25040 25013;
GX 6546 25025 25030; GX 6554 25030 25035; GX 6551 25035 25046; GX 25035 25010 6606; GI 6606 29223; GX 25031 25030 25009;
GX 25039 25046 29220; GI 29220 16318; GX 29227 16318 16326; GA 6558 6588 6552; GX 6549 6552 25008; GX 25008 25009 29224;
GX 29224 29231 16547; GX 29224 29223 16366; GI 16547 16322; GI 6607 29218; GI 29218 16312; GX 29225 16312 16374;
GI 6605 29222; GI 29222 16369; GX 29229 16369 16368; GX 6552 6555 25032; GX 25032 25046 29221; GX 29228 29221 16372;
GI 25032 25003; GX 25003 25025 25002; GX 25001 25002 25000; GI 25000 25049; GX 25049 25045 29219; GI 29219 16321;
GX 29226 16321 16320; GX 25039 25003 25014; GX 25013 25014 25012; GX 25352 25012 16315; GA 6909 6952 6890; GA 6906 6954 6889;
GX 6889 6890 24680; GX 6895 24680 24685; GX 24663 24685 24662; GX 24661 24662 24660; GX 6896 24685 24690; GX 24691 24690 24669;
GX 6904 24690 24695; GX 6901 24695 24706; GX 24699 24706 29453; GX 29453 29460 16220; GI 16220 15995; GX 29461 29453 15961;
GX 24695 24670 6956; GX 24668 24669 29457; GX 29457 29464 16192; GI 16192 16021; GX 16021 29453 16023; GI 24660 24709;
GX 24709 24705 29452; GX 29452 29459 16222; GI 16222 16012; GX 15955 29452 15954; GX 6892 24680 24700; GX 24700 24671 6957;
GX 6893 24700 24673; GX 24673 24674 24672; GX 24672 23924 16225; GI 16225 16027; GX 16225 16184 16013; GX 15949 24672 15948;
GX 24692 24706 29454; GX 29454 29461 16218; GX 16006 29454 16038; GX 16021 29454 16020; GA 6910 6951 6888; GX 6888 6890 24664;
GX 24664 24665 24708; GX 24708 24698 6955; GI 6955 29455; GX 29455 29462 16216; GX 29463 29455 16032; GI 6957 29451;
GX 29451 29458 16224; GX 15958 29451 16042; GX 16021 29451 16026; GI 16224 16000; GI 6956 29456; GX 29456 29463 16214;
GI 16214 16007; GX 1831 7014 7013; GX 24608 7024 7009; GA 7024 7009 7000; GX 1829 24607 24609; GX 1825 24609 7011;
GA 7022 7011 7001; GX 7000 7001 24590; GX 24590 24591 24642; GX 1826 24609 7008].
(** aes128_with_ks.txt:18504-18753 *)
Definition aes_enc_file_g74 : list gate := [
GA 7023 7008 7004; GX 7004 24608 24614; GX 24642 24614 24639; GX 1827 1825 24610; GX 24610 24608 24576; GX 24610 1826 24575;
GX 24607 24576 7012; GA 7021 7012 6999; GX 1831 24575 7019; GA 7019 1831 7005; GX 6999 7005 24619; GX 1826 24619 24634;
GX 7001 24609 24611; GX 7007 24610 24615; GX 1831 1825 24616; GX 24608 24616 7017; GX 1826 24616 7020; GX 1830 7020 7016;
GA 7016 7020 7003; GX 7003 24639 6997; GX 24616 24609 7010; GA 7017 7010 7002; GX 6999 7002 24613; GX 7000 24613 24633;
GX 7003 24633 24589; GX 1830 24589 6990; GX 24614 24613 24599; GX 24611 24599 6996; GX 24628 7017 7015; GA 7015 7013 7006;
GX 7000 7006 24620; GX 1824 24620 24635; GX 24620 24619 24598; GX 24608 24598 6995; GX 24615 24611 24621; GX 24635 24621 6998;
GA 6998 6997 6994; GX 6994 24634 24588; GX 6994 6996 6993; GX 24621 24588 6989; GA 6989 6990 6988; GX 6994 6988 6986;
GX 6988 7005 24586; GX 6988 6996 6987; GA 6987 7019 6964; GA 6996 6986 6985; GX 6988 24633 24587; GX 24586 7002 24581;
GX 6985 6993 6983; GX 6985 7003 24618; GX 24618 24639 6977; GX 1830 24618 24626; GA 6977 7014 6975; GA 6977 7018 6966;
GX 24626 24587 6984; GA 6984 7013 6974; GA 6984 7015 6965; GA 6987 1831 6973; GA 6995 6993 6992; GX 6992 24621 24636;
GX 7004 6992 24583; GX 24615 24583 24579; GX 1826 24579 24578; GX 1824 24579 24582; GX 24581 24582 6979; GA 6979 7022 6960;
GA 6979 7011 6969; GX 6969 6975 24629; GX 24634 24636 6991; GA 6991 6983 6982; GA 6991 7017 6961; GX 6982 24636 24580;
GA 6991 7010 6970; GX 6982 7006 24585; GX 24626 24585 24577; GX 24577 24578 6976; GX 24608 24577 24584; GX 24635 24580 6978;
GA 6978 7023 6963; GX 24581 24584 6980; GA 6980 7021 6958; GA 6980 7012 6967; GX 6963 6967 24625; GX 24629 24625 24597;
GA 6978 7008 6972; GX 6969 6972 24600; GX 6972 6975 24624; GA 6976 7009 6968; GX 6968 24629 24602; GX 6961 6973 24630;
GX 6964 24630 24593; GX 6958 6960 24596; GX 24596 24597 24640; GX 24640 24630 7025; GI 7025 29476; GX 29469 29476 16213;
GI 16213 16039; GX 16218 16213 16018; GX 29455 16018 29344; GX 29344 810 2738; GX 16216 29476 16008; GX 16008 16009 29352;
GX 29352 818 2730; GX 16214 16213 15987; GX 29470 15987 29361; GX 29361 825 2721; GI 24624 24595; GX 6970 6973 24631;
GX 24631 24595 24606; GA 6976 7024 6959; GX 6959 6960 24612; GX 6982 6995 6981; GA 6981 7016 6962; GX 6962 24612 24632;
GA 6981 7020 6971; GX 6963 24632 24605; GX 24605 24606 24604; GX 24264 24604 16223; GX 16223 16192 16028; GX 24672 16028 29339;
GX 29339 815 2743; GX 24604 16013 29347; GX 29347 823 2735; GX 16000 16223 15998; GX 6968 6971 24623; GX 24623 24625 24637;
GX 6970 24637 24603; GX 24632 24603 7027; GI 7027 29472; GX 29465 29472 16221; GX 16027 16221 16025; GX 16025 16026 29340;
GX 29340 814 2742; GX 16222 16221 15996; GX 29466 15996 29357; GX 29357 829 2725; GX 16184 29472 15951; GX 15951 15952 16264;
GX 16264 16224 29348; GX 29348 822 2734; GX 6965 24612 24617; GX 24595 24617 24594; GX 24593 24594 24592; GI 24592 24641;
GX 24641 24637 29473; GX 29466 29473 16219; GX 16219 29472 16041; GX 16041 16042 16040; GI 16040 29333; GX 29333 805 2749;
GX 16224 16219 16024; GX 29452 16024 29341; GX 29341 813 2741; GX 16012 29473 16010; GX 16010 16011 29349; GX 29349 821 2733;
GX 15995 16219 15993; GX 2742 2741 25580; GX 2734 2733 25648; GX 6966 24617 24622; GX 6974 24622 24627; GX 24623 24622 24601;
GX 24627 24602 7026; GI 7026 29477; GX 29470 29477 16212; GX 16212 29476 16031; GX 16031 16032 29337; GX 29337 801 2745;
GX 29477 29456 16030; GX 16216 16212 16017; GX 29456 16017 29345; GX 29345 809 2737; GX 2743 2737 25568; GX 2738 25568 6040;
GX 16007 29477 16004; GX 16004 16005 29353; GX 29353 817 2729; GX 16212 16184 15986; GX 29457 15986 29362; GX 29362 824 2720;
GX 2742 6040 6036; GX 2720 2725 5901; GX 2735 2729 25636; GA 6036 6040 6023; GX 2730 25636 5970; GX 2734 5970 5966;
GX 6971 24627 24638; GX 24631 24638 29474; GX 29467 29474 16217; GX 16012 16217 16022; GX 16022 16023 29342; GX 29342 812 2740;
GX 2740 2741 25543; GX 16218 16217 15990; GX 15959 29474 15956; GX 15956 15957 16262; GX 16262 16220 29350; GX 29350 820 2732;
GX 2732 2733 25611; GX 24624 24638 29475; GX 29468 29475 16215; GX 16039 29475 16037; GX 16037 16038 29336; GX 29336 802 2746;
GX 15995 16215 16019; GX 16019 16020 29343; GX 29343 811 2739; GX 16216 16215 15988; GX 29469 15988 29360; GX 29360 826 2722;
GX 15959 29475 15962; GX 15962 15963 16260; GX 16260 16218 29351; GX 29351 819 2731; GX 2731 2729 25630; GX 2741 2739 6044;
GX 2734 2732 25627; GX 2733 25627 25629; GX 25636 25629 5960; GX 2730 25629 5958; GX 2722 2720 25696; GX 2729 25629 5961;
GX 2739 2737 25562; GX 25562 2738 25527; GX 2743 25527 6039; GA 6039 2743 6025; GX 2733 2731 5974; GX 24600 24601 29478;
GX 29457 29478 16185; GX 29471 29478 16193; GX 16223 16185 16043; GX 23924 16043 29331; GX 29331 807 2751; GX 16184 29478 16029;
GX 16029 16030 29338; GX 29338 800 2744; GI 16185 15950; GX 16007 15950 16016; GX 29471 16016 29346; GX 29346 808 2736;
GX 2736 2742 6043; GX 16185 29470 16002; GX 16002 16003 29354; GX 29354 816 2728; GX 2730 2728 25628; GX 2728 2733 5971;
GX 16225 16193 16001; GX 24264 16001 29355; GX 29355 831 2727; GI 16193 15992].
(** aes128_with_ks.txt:18754-19003 *)
Definition aes_enc_file_g75 : list gate := [
GX 15992 29465 15999; GX 15998 15999 29356; GX 29356 830 2726; GX 15992 29467 15994; GX 15993 15994 29358; GX 29358 828 2724;
GX 2724 2725 25679; GX 15992 29468 15991; GX 15990 15991 15989; GI 15989 29359; GX 29359 827 2723; GX 16185 29474 15960;
GX 15960 15961 16261; GX 16261 16215 29335; GX 29335 803 2747; GX 2747 2744 6112; GX 15950 29473 15953; GX 15953 15954 16263;
GX 16263 16217 29334; GX 29334 804 2748; GX 15950 24604 15947; GX 15947 15948 16265; GX 16265 16221 29332; GX 29332 806 2750;
GX 2750 2749 25512; GX 6112 25512 6108; GX 2746 2744 25492; GX 2750 2748 25491; GX 2720 2726 5903; GX 2749 2747 6114;
GX 2751 2745 25500; GX 25492 25500 6107; GX 25512 6107 6105; GX 25492 6114 6099; GA 6114 6099 6090; GX 2744 2749 6111;
GX 2748 2749 25475; GX 2728 2734 5973; GX 2746 25500 6110; GX 2750 6110 6106; GA 6106 6110 6093; GX 2739 2736 6042;
GX 6042 25580 6038; GX 2736 2741 6041; GX 2738 2736 25560; GX 25560 25568 6037; GX 25580 6037 6035; GX 25560 6044 6029;
GX 2749 25491 25493; GX 25500 25493 6100; GX 2745 25493 6101; GA 6112 6101 6091; GX 6091 25493 25495; GX 6090 6091 25474;
GX 25474 25475 25526; GA 6107 6100 6092; GX 2746 25493 6098; GX 2731 2728 5972; GA 5972 5961 5951; GX 5972 25648 5968;
GX 2744 2750 6113; GA 6113 6098 6094; GX 6094 25492 25498; GX 25526 25498 25523; GX 25562 25560 25528; GX 2726 2724 25695;
GA 6044 6029 6020; GX 25491 6112 6104; GA 6108 6104 6097; GX 2751 6104 6103; GA 6105 6103 6096; GX 6090 6096 25504;
GX 2744 25504 25519; GX 25628 5974 5959; GA 5974 5959 5950; GX 5950 5951 25610; GX 25610 25611 25662; GX 6093 25523 6087;
GX 2725 25695 25697; GX 2721 25697 5891; GX 2722 25697 5888; GA 5903 5888 5884; GX 2723 2721 25698; GX 25698 2722 25663;
GX 2727 25663 5899; GX 25698 25696 25664; GX 25695 25664 5892; GA 5901 5892 5879; GA 5899 2727 5885; GX 5884 25696 25702;
GX 2727 2721 25704; GX 25704 25697 5890; GX 2722 25704 5900; GX 25696 25704 5897; GX 2726 5900 5896; GA 5896 5900 5883;
GA 5897 5890 5882; GX 5879 5882 25701; GX 25702 25701 25687; GX 5951 25629 25631; GX 25628 25636 5967; GX 25648 5967 5965;
GX 25627 5972 5964; GA 5968 5964 5957; GX 5957 25630 25635; GX 2735 5964 5963; GA 5965 5963 5956; GX 5950 5956 25640;
GX 25635 25631 25641; GX 2728 25640 25655; GX 25655 25641 5948; GX 2747 2745 25494; GX 6097 25494 25499; GX 25494 25492 25460;
GX 25491 25460 6102; GA 6111 6102 6089; GX 6089 6092 25497; GX 25498 25497 25483; GX 25499 25495 25505; GX 6090 25497 25517;
GX 25495 25483 6086; GX 6093 25517 25473; GX 2750 25473 6080; GX 25494 2746 25459; GX 2751 25459 6109; GA 6109 2751 6095;
GX 6089 6095 25503; GX 2746 25503 25518; GX 25504 25503 25482; GX 25492 25482 6085; GX 25519 25505 6088; GA 6088 6087 6084;
GX 6084 25518 25472; GX 6084 6086 6083; GX 25505 25472 6079; GA 6079 6080 6078; GX 6078 25517 25471; GX 6078 6086 6077;
GX 6078 6095 25470; GX 25470 6092 25465; GX 6084 6078 6076; GA 6086 6076 6075; GX 6075 6093 25502; GX 25502 25523 6067;
GX 2750 25502 25510; GX 25510 25471 6074; GA 6067 6104 6065; GA 6074 6103 6064; GA 6077 2751 6063; GA 6085 6083 6082;
GX 6094 6082 25467; GX 6082 25505 25520; GX 25518 25520 6081; GA 6081 6100 6060; GX 6060 6063 25515; GA 6067 6108 6056;
GA 6074 6105 6055; GA 6077 6109 6054; GA 6081 6107 6051; GX 6051 6063 25514; GX 6054 25514 25477; GX 6075 6083 6073;
GA 6081 6073 6072; GX 6072 6096 25469; GX 6072 6085 6071; GA 6071 6110 6061; GX 25510 25469 25461; GX 25492 25461 25468;
GX 25465 25468 6070; GA 6070 6102 6057; GA 6071 6106 6052; GA 6070 6111 6048; GX 25499 25467 25463; GX 2746 25463 25462;
GX 2744 25463 25466; GX 25465 25466 6069; GA 6069 6101 6059; GX 6059 6065 25513; GX 25461 25462 6066; GA 6066 6099 6058;
GX 6058 25513 25486; GX 6058 6061 25507; GA 6069 6112 6050; GX 6048 6050 25480; GA 6066 6114 6049; GX 6049 6050 25496;
GX 6052 25496 25516; GX 6055 25496 25501; GX 6056 25501 25506; GX 6064 25506 25511; GX 6061 25511 25522; GX 25515 25522 29185;
GX 25511 25486 6116; GX 25507 25506 25485; GI 6116 29188; GX 29209 29188 16452; GX 6072 25520 25464; GX 25519 25464 6068;
GA 6068 6098 6062; GX 6062 6065 25508; GI 25508 25479; GX 25508 25522 29186; GX 6059 6062 25484; GX 25484 25485 29189;
GX 29189 29210 16550; GX 16600 16550 16461; GI 16550 16296; GX 16550 29202 16426; GX 16550 29206 16306; GX 16296 29205 16299;
GX 16296 25420 16293; GX 25479 25501 25478; GX 25477 25478 25476; GX 25515 25479 25490; GA 6068 6113 6053; GX 6053 6057 25509;
GX 6053 25516 25489; GX 25507 25509 25521; GX 6060 25521 25487; GX 25516 25487 6117; GX 25489 25490 25488; GI 6117 29183;
GI 25476 25525; GX 25525 25521 29184; GX 25513 25509 25481; GX 25480 25481 25524; GX 25524 25514 6115; GI 6115 29187;
GX 2742 2740 25559; GX 25559 6042 6034; GX 2741 25559 25561; GX 2738 25561 6028; GX 25568 25561 6030; GX 2737 25561 6031;
GX 25559 25528 6032; GA 6038 6034 6027; GX 6027 25562 25567; GA 6043 6028 6024; GX 6024 25560 25566; GA 6037 6030 6022;
GA 6042 6031 6021; GX 6020 6021 25542; GX 25542 25543 25594; GX 25594 25566 25591; GX 6023 25591 6017; GA 6041 6032 6019;
GX 6019 6022 25565; GX 6020 25565 25585; GX 25566 25565 25551; GX 6019 6025 25571].
(** aes128_with_ks.txt:19004-19253 *)
Definition aes_enc_file_g76 : list gate := [
GX 2738 25571 25586; GX 6023 25585 25541; GX 2742 25541 6010; GX 6021 25561 25563; GX 25563 25551 6016; GX 25567 25563 25573;
GX 2743 6034 6033; GA 6035 6033 6026; GX 6020 6026 25572; GX 2736 25572 25587; GX 25587 25573 6018; GX 25572 25571 25550;
GX 25560 25550 6015; GA 6018 6017 6014; GX 6014 6016 6013; GA 6015 6013 6012; GX 6012 25573 25588; GX 6024 6012 25535;
GX 25567 25535 25531; GX 2736 25531 25534; GX 2738 25531 25530; GX 6014 25586 25540; GX 25573 25540 6009; GA 6009 6010 6008;
GX 6008 25585 25539; GX 6008 6016 6007; GX 6008 6025 25538; GX 25538 6022 25533; GX 25533 25534 5999; GA 5999 6042 5980;
GX 6014 6008 6006; GA 6016 6006 6005; GX 6005 6023 25570; GX 6005 6013 6003; GX 25570 25591 5997; GX 25586 25588 6011;
GA 6011 6037 5981; GA 6011 6003 6002; GX 6002 6015 6001; GX 6002 6026 25537; GX 6002 25588 25532; GX 25587 25532 5998;
GX 2742 25570 25578; GX 25578 25539 6004; GX 25578 25537 25529; GX 25560 25529 25536; GX 25533 25536 6000; GA 6000 6041 5978;
GX 5978 5980 25548; GX 25529 25530 5996; GA 5996 6044 5979; GX 5979 5980 25564; GA 5997 6034 5995; GA 6004 6033 5994;
GA 6007 2743 5993; GX 5981 5993 25582; GA 5998 6028 5992; GX 5992 5995 25576; GI 25576 25547; GA 6001 6040 5991;
GA 6011 6030 5990; GX 5990 5993 25583; GX 25583 25547 25558; GA 5999 6031 5989; GX 5989 5995 25581; GX 5989 5992 25552;
GA 5996 6029 5988; GX 5988 25581 25554; GX 5988 5991 25575; GA 6000 6032 5987; GA 5997 6038 5986; GX 5879 5885 25707;
GX 2722 25707 25722; GX 2723 2720 5902; GX 25695 5902 5894; GX 2727 5894 5893; GA 5902 5891 5881; GX 5881 25697 25699;
GX 25699 25687 5876; GA 5967 5960 5952; GA 6001 6036 5982; GX 5982 25564 25584; GX 2726 2725 25716; GX 5902 25716 5898;
GX 25716 5897 5895; GA 5895 5893 5886; GA 5898 5894 5887; GX 5887 25698 25703; GX 25703 25699 25709; GX 2725 2723 5904;
GX 25696 5904 5889; GA 5904 5889 5880; GX 5880 25701 25721; GX 5883 25721 25677; GX 2726 25677 5870; GX 5880 5881 25678;
GX 25678 25679 25730; GX 25730 25702 25727; GX 5883 25727 5877; GX 5880 5886 25708; GX 2720 25708 25723; GX 25723 25709 5878;
GX 25708 25707 25686; GX 25696 25686 5875; GA 5878 5877 5874; GX 5874 25722 25676; GX 5874 5876 5873; GX 25709 25676 5869;
GA 5875 5873 5872; GX 5884 5872 25671; GX 25703 25671 25667; GX 2722 25667 25666; GX 5872 25709 25724; GA 5869 5870 5868;
GX 5868 25721 25675; GX 5868 5876 5867; GA 5867 5899 5844; GA 5867 2727 5853; GX 5868 5885 25674; GX 25674 5882 25669;
GX 5874 5868 5866; GA 5876 5866 5865; GX 25722 25724 5871; GA 5871 5890 5850; GX 5850 5853 25719; GX 5865 5873 5863;
GA 5871 5863 5862; GX 5862 5886 25673; GX 5862 25724 25668; GX 25723 25668 5858; GA 5858 5888 5852; GA 5858 5903 5843;
GX 5862 5875 5861; GA 5861 5900 5851; GA 5861 5896 5842; GA 5871 5897 5841; GX 2720 25667 25670; GX 25669 25670 5859;
GA 5859 5902 5840; GA 5859 5891 5849; GX 5849 5852 25688; GX 5865 5883 25706; GX 2726 25706 25714; GX 25714 25673 25665;
GX 25696 25665 25672; GX 25665 25666 5856; GA 5856 5889 5848; GX 25714 25675 5864; GA 5864 5895 5845; GA 5856 5904 5839;
GX 5839 5840 25700; GX 5842 25700 25720; GX 5843 25720 25693; GA 5864 5893 5854; GX 25669 25672 5860; GA 5860 5892 5847;
GA 5860 5901 5838; GX 5838 5840 25684; GX 5845 25700 25705; GX 5848 5851 25711; GX 5843 5847 25713; GX 25711 25713 25725;
GX 5850 25725 25691; GX 25720 25691 5907; GI 5907 29232; GX 29225 29232 16584; GX 16547 29232 16314; GX 16314 16315 16627;
GX 5841 5853 25718; GX 5844 25718 25681; GX 25706 25727 5857; GA 5857 5898 5846; GA 5857 5894 5855; GX 5846 25705 25710;
GX 25711 25710 25689; GX 25688 25689 29238; GX 29231 29238 16556; GX 16547 29238 16392; GI 16556 16355; GX 16355 29225 16362;
GX 16355 29227 16357; GX 16355 29228 16354; GX 5852 5855 25712; GI 25712 25683; GX 25683 25705 25682; GX 25681 25682 25680;
GI 25680 25729; GX 25729 25725 29233; GX 29226 29233 16582; GX 16582 29232 16404; GX 25719 25683 25694; GX 25693 25694 25692;
GX 25352 25692 16586; GX 5854 25710 25715; GX 5851 25715 25726; GX 25712 25726 29235; GX 29228 29235 16578; GX 16322 29235 16325;
GX 16325 16326 16623; GX 25719 25726 29234; GX 29227 29234 16580; GX 16322 29234 16319; GX 16319 16320 16625; GX 5849 5855 25717;
GX 25717 25713 25685; GX 5848 25717 25690; GX 25684 25685 25728; GX 25728 25718 5905; GI 5905 29236; GX 29229 29236 16576;
GI 16576 16402; GX 16402 29235 16400; GX 25715 25690 5906; GI 5906 29237; GX 29230 29237 16575; GX 16575 29236 16394;
GX 16575 16547 16349; GX 25630 25628 25596; GX 25627 25596 5962; GA 5971 5962 5949; GX 5949 5952 25633; GX 5950 25633 25653;
GX 25630 2730 25595; GX 2735 25595 5969; GA 5969 2735 5955; GX 5949 5955 25639; GX 2730 25639 25654; GX 25640 25639 25618;
GX 25628 25618 5945; GA 5973 5958 5954; GX 5954 25628 25634; GX 25662 25634 25659; GX 25634 25633 25619; GX 25631 25619 5946;
GA 5966 5970 5953; GX 5953 25659 5947; GA 5948 5947 5944; GX 5944 5946 5943; GA 5945 5943 5942; GX 5954 5942 25603;
GX 25635 25603 25599; GX 2730 25599 25598; GX 5942 25641 25656; GX 25654 25656 5941; GA 5941 5967 5911; GA 5941 5960 5920;
GX 5953 25653 25609; GX 2734 25609 5940; GX 5944 25654 25608; GX 25641 25608 5939].
(** aes128_with_ks.txt:19254-19503 *)
Definition aes_enc_file_g77 : list gate := [
GA 5939 5940 5938; GX 5938 25653 25607; GX 5938 5955 25606; GX 5938 5946 5937; GA 5937 5969 5914; GX 25606 5952 25601;
GA 5937 2735 5923; GX 5944 5938 5936; GA 5946 5936 5935; GX 5935 5943 5933; GX 5935 5953 25638; GX 25638 25659 5927;
GA 5927 5964 5925; GA 5927 5968 5916; GX 2734 25638 25646; GX 25646 25607 5934; GA 5934 5963 5924; GA 5934 5965 5915;
GA 5941 5933 5932; GX 5932 5945 5931; GA 5931 5966 5912; GA 5931 5970 5921; GX 5911 5923 25650; GX 5914 25650 25613;
GX 5920 5923 25651; GX 5932 5956 25605; GX 25646 25605 25597; GX 25628 25597 25604; GX 25601 25604 5930; GA 5930 5962 5917;
GX 25597 25598 5926; GA 5926 5959 5918; GA 5930 5971 5908; GX 5918 5921 25643; GA 5926 5974 5909; GX 2728 25599 25602;
GX 25601 25602 5929; GA 5929 5961 5919; GA 5929 5972 5910; GX 5908 5910 25616; GX 5909 5910 25632; GX 5915 25632 25637;
GX 5916 25637 25642; GX 5924 25642 25647; GX 5919 5925 25649; GX 5912 25632 25652; GX 5921 25647 25658; GX 25651 25658 29255;
GX 29255 16333 16340; GX 5918 25649 25622; GX 25647 25622 5976; GI 5976 29258; GX 25643 25642 25621; GX 5932 25656 25600;
GX 25655 25600 5928; GA 5928 5958 5922; GA 5928 5973 5913; GX 5922 5925 25644; GX 25644 25658 29256; GI 29256 16500;
GX 16500 29249 16520; GX 5913 5917 25645; GX 25649 25645 25617; GX 25616 25617 25660; GX 25660 25650 5975; GI 5975 29257;
GX 29257 16516 16515; GX 25643 25645 25657; GX 5913 25652 25625; GI 25644 25615; GX 25615 25637 25614; GX 25613 25614 25612;
GI 25612 25661; GX 25661 25657 29254; GX 29254 29247 16336; GX 25651 25615 25626; GX 25625 25626 25624; GX 25624 25284 16330;
GX 5920 25657 25623; GX 25652 25623 5977; GI 5977 29253; GI 29253 16507; GX 16507 29246 16522; GX 5919 5922 25620;
GX 25620 25621 29259; GX 29252 29259 16545; GX 16574 16545 16524; GA 6004 6035 5985; GX 5985 25564 25569; GX 25547 25569 25546;
GX 5986 25569 25574; GX 5994 25574 25579; GX 25575 25574 25553; GX 25552 25553 29168; GX 29161 29168 16559; GI 16559 16345;
GX 16345 29157 16511; GX 16345 29158 16493; GX 16345 29155 16344; GX 5991 25579 25590; GX 25579 25554 6046; GI 6046 29167;
GX 29160 29167 16605; GI 16605 16483; GX 16483 16285 16489; GX 16483 29181 16481; GX 29168 29167 16480; GX 29180 29167 16398;
GX 25583 25590 29164; GX 29157 29164 16611; GI 16611 16473; GI 29164 16284; GX 29177 16284 16283; GX 16282 16283 16638;
GX 25576 25590 29165; GX 29158 29165 16609; GI 16609 16470; GX 29178 29165 16289; GX 16288 16289 16636; GA 6007 6039 5984;
GX 5984 25582 25545; GX 25545 25546 25544; GI 25544 25593; GA 5998 6043 5983; GX 5983 25584 25557; GX 25557 25558 25556;
GX 25216 25556 16616; GX 5983 5987 25577; GX 25575 25577 25589; GX 5990 25589 25555; GX 25584 25555 6047; GI 6047 29162;
GX 29155 29162 16615; GI 16615 16477; GX 16552 29162 16278; GX 16278 16279 16640; GX 25581 25577 25549; GX 25593 25589 29163;
GX 29156 29163 16613; GX 16613 29162 16486; GX 29155 29163 16465; GX 25548 25549 25592; GX 25592 25582 6045; GI 6045 29166;
GX 29159 29166 16607; GX 16607 29180 16484; GI 29166 16416; GX 29179 16416 16415; GX 24199 24168 7432; GA 7441 7432 7419;
GX 7419 7422 24205; GX 7420 24205 24225; GX 24206 24205 24191; GX 24203 24191 7416; GX 7414 7416 7413; GX 7423 24225 24181;
GX 1878 24181 7410; GX 24202 1874 24167; GX 1879 24167 7439; GA 7439 1879 7425; GX 7419 7425 24211; GX 1874 24211 24226;
GX 24212 24211 24190; GX 24200 24190 7415; GA 7415 7413 7412; GX 7412 24213 24228; GX 24226 24228 7411; GA 7411 7430 7390;
GX 7414 24226 24180; GX 24213 24180 7409; GA 7409 7410 7408; GX 7414 7408 7406; GA 7416 7406 7405; GX 7405 7423 24210;
GX 1878 24210 24218; GX 7405 7413 7403; GA 7411 7403 7402; GX 7402 7415 7401; GA 7401 7440 7391; GX 7408 7416 7407;
GX 24210 24231 7397; GX 7408 24225 24179; GX 24218 24179 7404; GA 7404 7435 7385; GX 7408 7425 24178; GX 24178 7422 24173;
GX 7402 7426 24177; GX 24218 24177 24169; GX 24200 24169 24176; GX 24173 24176 7400; GA 7400 7432 7387; GX 7424 7412 24175;
GX 24207 24175 24171; GX 1872 24171 24174; GX 24173 24174 7399; GA 7399 7431 7389; GX 7402 24228 24172; GX 24227 24172 7398;
GA 7398 7428 7392; GX 7389 7392 24192; GX 1874 24171 24170; GX 24169 24170 7396; GA 7396 7429 7388; GA 7396 7444 7379;
GX 7388 7391 24215; GA 7400 7441 7378; GA 7398 7443 7383; GX 7383 7387 24217; GX 24215 24217 24229; GX 7390 24229 24195;
GA 7404 7433 7394; GA 7411 7437 7381; GA 7407 7439 7384; GA 7401 7436 7382; GA 7407 1879 7393; GX 7381 7393 24222;
GX 7384 24222 24185; GX 7390 7393 24223; GA 7397 7434 7395; GX 7392 7395 24216; GI 24216 24187; GX 7389 7395 24221;
GX 7388 24221 24194; GX 24223 24187 24198; GX 24221 24217 24189; GA 7399 7442 7380; GX 7379 7380 24204; GX 7385 24204 24209;
GX 7382 24204 24224; GX 24224 24195 7447; GI 7447 29486; GX 29479 29486 16210; GX 16210 16205 16170; GX 29480 16170 29373;
GX 29373 781 2709; GX 16144 29486 16159; GX 16210 16209 16142; GX 16142 16143 16141; GI 16141 29388; GX 29388 798 2694;
GX 24876 29486 15965; GX 15964 15965 16259; GX 16259 16207 29364; GX 29364 774 2718; GX 7383 24224 24197; GX 24197 24198 24196;
GX 23856 24196 16211; GX 16211 16207 16171; GX 16211 16191 16145; GX 24536 16145 29387].
(** aes128_with_ks.txt:19504-19753 *)
Definition aes_enc_file_g78 : list gate := [
GX 29387 799 2695; GX 24196 15985 29363; GX 29363 775 2719; GX 24536 24196 15967; GX 7378 7380 24188; GX 24188 24189 24232;
GX 24187 24209 24186; GX 24185 24186 24184; GI 24184 24233; GX 24233 24229 29487; GX 29480 29487 16208; GX 16208 16203 16168;
GX 16208 29501 16160; GI 16160 16158; GX 16158 16159 29381; GX 29381 789 2701; GX 16208 16207 16140; GX 29494 16140 29389;
GX 29389 797 2693; GX 29500 29487 15984; GX 15983 15984 29365; GX 29365 773 2717; GX 2718 2717 25784; GX 29494 29487 15973;
GX 24232 24222 7445; GX 2694 2693 25988; GI 7445 29490; GX 29483 29490 16202; GI 29490 16153; GX 16153 29482 16179;
GX 16178 16179 29368; GX 29368 770 2714; GX 16202 16198 16163; GX 29484 16163 29377; GX 29377 777 2705; GX 16202 29504 16156;
GX 29497 16153 16152; GX 16202 16201 16133; GX 29497 16133 29392; GX 29392 794 2690; GA 7397 7438 7386; GX 7386 24209 24214;
GX 24215 24214 24193; GX 7394 24214 24219; GX 7391 24219 24230; GX 24219 24194 7446; GX 24192 24193 29492; GX 29492 29499 16182;
GX 29485 29492 16190; GX 16182 29506 16174; GX 16174 16175 29370; GX 29370 768 2712; GX 2712 2718 5833; GX 16209 16190 16173;
GX 23856 16173 29371; GX 29371 783 2711; GX 16190 29479 16172; GX 16171 16172 29372; GX 29372 782 2710; GX 16190 29481 16169;
GX 16168 16169 29374; GX 29374 780 2708; GX 16190 29482 16167; GX 16211 16182 16161; GX 24876 16161 29379; GX 29379 791 2703;
GX 16198 16182 16131; GX 29485 16131 29394; GX 29394 792 2688; GX 2712 2717 5831; GX 16182 29503 15978; GI 15978 15976;
GX 16182 29502 15972; GX 15972 15973 16256; GX 16182 29500 15966; GX 15966 15967 16258; GX 16258 16210 29380; GX 29380 790 2702;
GX 2702 2701 25920; GX 2688 2694 5623; GX 2690 2688 25968; GX 24216 24230 29489; GX 29482 29489 16204; GX 16204 16199 16165;
GX 29483 16165 29376; GX 29376 778 2706; GX 16137 29489 16157; GX 16156 16157 16155; GI 16155 29384; GX 29384 786 2698;
GX 16204 16203 16135; GX 16135 16136 16134; GI 16134 29391; GX 29391 795 2691; GX 2691 2688 5622; GX 29502 29489 15975;
GX 15974 15975 16255; GX 16255 16201 29367; GX 29367 771 2715; GX 2717 2715 5834; GX 5622 25988 5618; GI 7446 29491;
GX 29484 29491 16200; GX 29491 29483 16177; GX 16176 16177 29369; GX 29369 769 2713; GI 16200 16154; GX 16154 15971 16162;
GX 29499 16162 29378; GX 29378 776 2704; GX 2706 2704 25832; GX 16154 29505 16151; GX 16151 16152 29385; GX 29385 785 2697;
GX 29492 29491 16150; GX 16149 16150 29386; GX 29386 784 2696; GX 2696 2701 5691; GX 16200 16199 16132; GX 29498 16132 29393;
GX 29393 793 2689; GX 2695 2689 25976; GX 2691 2689 25970; GX 25970 2690 25935; GX 2695 25935 5619; GX 2698 2696 25900;
GX 2719 2713 25772; GX 2714 25772 5830; GX 2704 2709 5761; GX 2718 5830 5826; GA 5826 5830 5813; GX 2715 2712 5832;
GX 2710 2708 25831; GX 24223 24230 29488; GX 29481 29488 16206; GX 16256 16206 29382; GX 29382 788 2700; GX 2700 2701 25883;
GX 2702 2700 25899; GX 16206 16201 16166; GX 16166 16167 29375; GX 29375 779 2707; GX 2709 2707 5764; GX 16206 16205 16138;
GX 16138 16139 29390; GX 29390 796 2692; GI 29488 15970; GX 29495 15970 15977; GX 15976 15977 16254; GX 16254 16204 29383;
GX 29383 787 2699; GX 29501 15970 15969; GX 15968 15969 16257; GX 16257 16203 29366; GX 29366 772 2716; GX 2718 2716 25763;
GX 25763 5832 5824; GX 2694 2692 25967; GX 2693 25967 25969; GX 2689 25969 5611; GX 25967 5622 5614; GX 2695 5614 5613;
GX 2690 25969 5608; GX 2716 2717 25747; GX 25832 5764 5749; GA 5764 5749 5740; GX 2703 2697 25908; GX 25900 25908 5687;
GX 25920 5687 5685; GX 2698 25908 5690; GX 2702 5690 5686; GA 5686 5690 5673; GX 2711 2705 25840; GX 25832 25840 5757;
GX 2709 25831 25833; GX 2705 25833 5751; GX 25840 25833 5750; GA 5757 5750 5742; GX 2708 2709 25815; GX 2701 25899 25901;
GX 2698 25901 5678; GX 25908 25901 5680; GX 2697 25901 5681; GX 2701 2699 5694; GX 25900 5694 5679; GA 5618 5614 5607;
GX 5607 25970 25975; GX 2710 2709 25852; GX 25852 5757 5755; GX 2706 25840 5760; GX 2710 5760 5756; GA 5756 5760 5743;
GX 2699 2697 25902; GX 25902 25900 25868; GX 25899 25868 5682; GA 5691 5682 5669; GX 25902 2698 25867; GX 2703 25867 5689;
GA 5689 2703 5675; GA 5687 5680 5672; GX 5669 5672 25905; GX 2696 2702 5693; GA 5693 5678 5674; GX 5674 25900 25906;
GX 25906 25905 25891; GX 5669 5675 25911; GX 2698 25911 25926; GX 2719 5824 5823; GX 2707 2704 5762; GX 25831 5762 5754;
GX 2711 5754 5753; GA 5755 5753 5746; GX 5740 5746 25844; GX 2704 25844 25859; GA 5762 5751 5741; GX 5740 5741 25814;
GX 5741 25833 25835; GX 25814 25815 25866; GX 5762 25852 5758; GX 2688 2693 5621; GX 25976 25969 5610; GA 5694 5679 5670;
GX 5670 25905 25925; GX 5673 25925 25881; GX 2702 25881 5660; GX 2693 2691 5624; GX 25968 5624 5609; GX 2714 2712 25764;
GX 25764 25772 5827; GX 25784 5827 5825; GA 5825 5823 5816; GA 5622 5611 5601; GX 5601 25969 25971; GX 25975 25971 25981;
GX 2699 2696 5692; GX 25899 5692 5684; GA 5692 5681 5671; GX 5670 5671 25882; GX 5671 25901 25903; GX 25903 25891 5666;
GX 5692 25920 5688; GA 5688 5684 5677; GX 5677 25902 25907; GX 25907 25903 25913; GX 25882 25883 25934; GX 25934 25906 25931;
GX 5673 25931 5667; GX 2706 25833 5748; GA 5758 5754 5747; GX 2707 2705 25834].
(** aes128_with_ks.txt:19754-20003 *)
Definition aes_enc_file_g79 : list gate := [
GX 25834 2706 25799; GX 25834 25832 25800; GX 25831 25800 5752; GX 2711 25799 5759; GX 5747 25834 25839; GX 25839 25835 25845;
GX 25859 25845 5738; GX 2704 2710 5763; GA 5763 5748 5744; GX 5744 25832 25838; GX 25866 25838 25863; GX 5743 25863 5737;
GA 5738 5737 5734; GA 5761 5752 5739; GX 5739 5742 25837; GX 25838 25837 25823; GX 5740 25837 25857; GX 5743 25857 25813;
GX 2710 25813 5730; GX 25835 25823 5736; GX 5734 5736 5733; GA 5759 2711 5745; GX 5739 5745 25843; GX 25844 25843 25822;
GX 25832 25822 5735; GX 2706 25843 25858; GX 5734 25858 25812; GX 25845 25812 5729; GA 5735 5733 5732; GX 5732 25845 25860;
GX 25858 25860 5731; GA 5731 5757 5701; GX 5744 5732 25807; GX 25839 25807 25803; GX 2704 25803 25806; GX 2706 25803 25802;
GA 5729 5730 5728; GX 5728 5736 5727; GA 5727 5759 5704; GX 5734 5728 5726; GA 5736 5726 5725; GX 5725 5733 5723;
GX 5725 5743 25842; GX 25842 25863 5717; GA 5717 5758 5706; GX 2710 25842 25850; GA 5731 5723 5722; GX 5722 25860 25804;
GX 5722 5746 25809; GX 25850 25809 25801; GX 25801 25802 5716; GA 5716 5764 5699; GX 25832 25801 25808; GX 5722 5735 5721;
GA 5721 5756 5702; GX 5728 25857 25811; GX 25850 25811 5724; GA 5724 5755 5705; GA 5717 5754 5715; GA 5724 5753 5714;
GX 25859 25804 5718; GA 5718 5763 5703; GA 5727 2711 5713; GX 5728 5745 25810; GX 25810 5742 25805; GX 25805 25808 5720;
GA 5720 5761 5698; GX 25805 25806 5719; GA 5719 5762 5700; GX 5699 5700 25836; GX 5702 25836 25856; GX 5703 25856 25829;
GX 5705 25836 25841; GX 5706 25841 25846; GX 5714 25846 25851; GX 5701 5713 25854; GX 5704 25854 25817; GA 5720 5752 5707;
GX 5703 5707 25849; GX 5832 25784 5828; GA 5828 5824 5817; GX 2703 5684 5683; GA 5685 5683 5676; GX 5670 5676 25912;
GX 25912 25911 25890; GX 25900 25890 5665; GX 2696 25912 25927; GX 25927 25913 5668; GA 5668 5667 5664; GX 5664 5666 5663;
GA 5665 5663 5662; GX 5662 25913 25928; GX 25926 25928 5661; GX 5664 25926 25880; GX 25913 25880 5659; GA 5661 5687 5631;
GX 5674 5662 25875; GX 25907 25875 25871; GX 2698 25871 25870; GX 2696 25871 25874; GX 5698 5700 25820; GX 2690 25976 5620;
GX 2694 5620 5616; GX 25968 25976 5617; GX 25988 5617 5615; GA 5617 5610 5602; GX 2692 2693 25951; GX 25970 25968 25936;
GX 25967 25936 5612; GA 5615 5613 5606; GA 5619 2695 5605; GA 5623 5608 5604; GX 5604 25968 25974; GA 5616 5620 5603;
GA 5624 5609 5600; GX 5600 5606 25980; GX 2688 25980 25995; GX 25995 25981 5598; GX 5600 5601 25950; GX 25950 25951 26002;
GX 26002 25974 25999; GX 5603 25999 5597; GA 5598 5597 5594; GA 5621 5612 5599; GX 5599 5602 25973; GX 5599 5605 25979;
GX 25980 25979 25958; GX 25968 25958 5595; GX 5600 25973 25993; GX 2690 25979 25994; GX 25974 25973 25959; GX 25971 25959 5596;
GX 5594 5596 5593; GA 5595 5593 5592; GX 5604 5592 25943; GX 25975 25943 25939; GX 5603 25993 25949; GX 2694 25949 5590;
GX 5594 25994 25948; GX 25981 25948 5589; GX 2688 25939 25942; GX 2690 25939 25938; GA 5589 5590 5588; GX 5594 5588 5586;
GX 5588 5596 5587; GA 5587 2695 5573; GX 5588 25993 25947; GX 5588 5605 25946; GX 25946 5602 25941; GX 25941 25942 5579;
GA 5579 5622 5560; GA 5579 5611 5569; GA 5596 5586 5585; GX 5585 5593 5583; GX 5585 5603 25978; GX 25978 25999 5577;
GA 5577 5618 5566; GX 2694 25978 25986; GX 25986 25947 5584; GA 5584 5613 5574; GA 5577 5614 5575; GX 5569 5575 25989;
GA 5584 5615 5565; GA 5587 5619 5564; GA 5659 5660 5658; GX 5658 25925 25879; GX 5658 5675 25878; GX 5658 5666 5657;
GX 5664 5658 5656; GX 25878 5672 25873; GX 25873 25874 5649; GA 5649 5681 5639; GA 5649 5692 5630; GA 5657 2703 5643;
GX 5631 5643 25922; GA 5666 5656 5655; GX 5655 5663 5653; GA 5661 5653 5652; GX 5652 5665 5651; GX 5652 25928 25872;
GX 25927 25872 5648; GA 5648 5693 5633; GX 5652 5676 25877; GX 5655 5673 25910; GX 2702 25910 25918; GX 25918 25877 25869;
GX 25900 25869 25876; GX 25918 25879 5654; GX 25873 25876 5650; GX 25910 25931 5647; GX 25869 25870 5646; GA 5646 5679 5638;
GA 5646 5694 5629; GX 5629 5630 25904; GA 5647 5684 5645; GX 5639 5645 25921; GX 5638 25921 25894; GA 5654 5683 5644;
GA 5650 5691 5628; GX 5628 5630 25888; GA 5651 5686 5632; GX 5632 25904 25924; GX 5633 25924 25897; GA 5648 5678 5642;
GX 5639 5642 25892; GX 5642 5645 25916; GI 25916 25887; GA 5651 5690 5641; GX 5638 5641 25915; GA 5661 5680 5640;
GX 5640 5643 25923; GX 25923 25887 25898; GX 25897 25898 25896; GX 25896 25148 16614; GX 16614 16552 16544; GX 25556 16544 29027;
GX 29027 999 2687; GX 16477 16614 16475; GX 16614 16559 16360; GX 25216 16360 29035; GX 29035 1007 2679; GX 29176 25896 16281;
GA 5650 5682 5637; GX 5633 5637 25917; GX 25915 25917 25929; GX 5640 25929 25895; GX 25924 25895 5697; GX 25921 25917 25889;
GX 25888 25889 25932; GX 25932 25922 5695; GI 5695 29173; GX 29173 29180 16604; GX 16609 16604 16491; GX 29159 16491 29040;
GX 29040 1002 2674; GX 29173 16416 16482; GX 16481 16482 29049; GX 29049 1009 2665; GX 16605 16604 16463; GI 16604 16417;
GX 16417 29158 16414; GX 16414 16415 29032; GX 29032 994 2682; GI 5697 29169; GX 29169 29176 16612; GX 16640 16612 29028;
GX 29028 998 2686; GX 29177 29169 16487; GX 16486 16487 29045; GX 29045 1013 2669].
(** aes128_with_ks.txt:20004-20253 *)
Definition aes_enc_file_g80 : list gate := [
GX 16613 16612 16474; GX 16616 16612 16343; GX 16343 16344 16342; GI 16342 29036; GX 29036 1006 2678; GA 5647 5688 5636;
GA 5654 5685 5635; GX 5635 25904 25909; GX 25887 25909 25886; GX 5636 25909 25914; GX 25915 25914 25893; GX 5644 25914 25919;
GX 25919 25894 5696; GX 25892 25893 29175; GX 29168 29175 16551; GX 29175 29182 16560; GX 29175 16489 29042; GX 29042 1000 2672;
GX 2672 2678 5483; GX 16616 16551 16488; GX 25148 16488 29043; GX 29043 1015 2671; GX 16616 16560 16478; GX 25896 16478 29051;
GX 29051 1023 2663; GI 16560 16469; GX 16469 29169 16476; GX 16475 16476 29052; GX 29052 1022 2662; GX 16551 29160 16377;
GX 16377 16378 29034; GX 29034 992 2680; GX 2680 2686 5553; GX 16551 29179 16292; GI 16292 16290; GX 16551 29178 16286;
GX 16551 25556 16280; GX 16280 16281 16639; GX 16639 16615 29044; GX 29044 1014 2670; GX 2670 2669 26192; GX 2671 2665 26180;
GX 2682 2680 26036; GX 5641 25919 25930; GX 25916 25930 29172; GX 29172 29179 16606; GX 16636 16606 29031; GX 29031 995 2683;
GX 16473 16606 16492; GX 16492 16493 29039; GX 29039 1003 2675; GX 29172 29165 16485; GX 16484 16485 29048; GX 29048 1010 2666;
GX 2666 26180 5410; GX 16469 29172 16468; GX 16607 16606 16466; GX 29173 16466 29056; GX 29056 1018 2658; GX 25923 25930 29171;
GX 29171 29178 16608; GX 16638 16608 29030; GX 29030 996 2684; GX 2686 2684 26035; GX 16613 16608 16510; GX 16510 16511 16509;
GI 16509 29038; GX 29038 1004 2676; GX 16469 29171 16472; GX 16470 16608 16467; GX 16467 16468 29055; GX 29055 1019 2659;
GX 29171 16284 16291; GX 16290 16291 16635; GX 16635 16609 29047; GX 29047 1011 2667; GX 2667 2665 26174; GX 2669 2667 5414;
GX 2670 5410 5406; GA 5406 5410 5393; GX 2678 2676 26103; GX 2674 2672 26104; GI 5696 29174; GX 29174 29181 16603;
GX 16607 16603 16490; GX 29160 16490 29041; GX 29041 1001 2673; GX 2679 2673 26112; GX 16552 29174 16479; GX 16479 16480 29050;
GX 29050 1008 2664; GX 29174 16463 29057; GX 29057 1017 2657; GX 2663 2657 26248; GX 16603 16551 16462; GX 29161 16462 29058;
GX 29058 1016 2656; GX 2666 2664 26172; GX 26172 5414 5399; GI 16603 16399; GX 16399 29159 16397; GX 16397 16398 16396;
GI 16396 29033; GX 29033 993 2681; GX 2687 2681 26044; GX 26036 26044 5547; GX 2682 26044 5550; GX 26172 26180 5407;
GX 26192 5407 5405; GX 2674 26112 5480; GX 2664 2669 5411; GX 2667 2664 5412; GX 5412 26192 5408; GX 26104 26112 5477;
GX 2675 2673 26106; GX 26106 26104 26072; GX 26103 26072 5472; GX 26106 2674 26071; GX 2686 5550 5546; GA 5546 5550 5533;
GX 2679 26071 5479; GA 5479 2679 5465; GX 2678 5480 5476; GA 5476 5480 5463; GX 2675 2672 5482; GX 26103 5482 5474;
GX 2679 5474 5473; GX 2664 2670 5413; GX 2656 2662 5343; GX 2658 2656 26240; GX 2659 2657 26242; GX 26242 26240 26208;
GX 26242 2658 26207; GX 2663 26207 5339; GA 5339 2663 5325; GX 2659 2656 5342; GX 2658 26248 5340; GX 2662 5340 5336;
GA 5336 5340 5323; GX 26240 26248 5337; GX 26174 26172 26140; GX 26174 2666 26139; GX 2671 26139 5409; GA 5409 2671 5395;
GA 5414 5399 5390; GX 2683 2681 26038; GX 26038 26036 26004; GX 26035 26004 5542; GX 26038 2682 26003; GX 2687 26003 5549;
GA 5549 2687 5535; GX 2683 2680 5552; GX 26035 5552 5544; GX 2687 5544 5543; GA 5657 5689 5634; GX 5634 25922 25885;
GX 25885 25886 25884; GI 25884 25933; GX 25933 25929 29170; GX 29170 29177 16610; GX 16615 16610 16527; GX 29156 16527 29037;
GX 29037 1005 2677; GX 29170 16474 29053; GX 29053 1021 2661; GX 2661 2659 5344; GX 16473 16610 16471; GX 16471 16472 29054;
GX 29054 1020 2660; GX 2662 2660 26239; GX 26239 5342 5334; GX 16610 29176 16464; GX 16464 16465 29029; GX 29029 997 2685;
GX 2686 2685 26056; GX 2680 2685 5551; GX 5552 26056 5548; GA 5548 5544 5537; GX 5537 26038 26043; GX 29170 29163 16287;
GX 16286 16287 16637; GX 16637 16611 29046; GX 29046 1012 2668; GX 2670 2668 26171; GA 5551 5542 5529; GX 2663 5334 5333;
GX 2660 2661 26223; GX 2684 2685 26019; GX 26240 5344 5329; GA 5344 5329 5320; GX 2676 2677 26087; GX 2668 2669 26155;
GX 2678 2677 26124; GX 26124 5477 5475; GA 5475 5473 5466; GX 2669 26171 26173; GX 26180 26173 5400; GX 26239 26208 5332;
GX 2685 2683 5554; GX 2677 2675 5484; GA 5407 5400 5392; GX 2666 26173 5398; GX 26056 5547 5545; GA 5545 5543 5536;
GX 26171 5412 5404; GX 2671 5404 5403; GX 2677 26103 26105; GX 2674 26105 5468; GX 2673 26105 5471; GX 26112 26105 5470;
GA 5477 5470 5462; GX 2672 2677 5481; GA 5481 5472 5459; GX 5459 5465 26115; GX 2674 26115 26130; GX 5482 26124 5478;
GX 26104 5484 5469; GX 5459 5462 26109; GA 5478 5474 5467; GX 5467 26106 26111; GA 5482 5471 5461; GX 5461 26105 26107;
GX 26111 26107 26117; GA 5483 5468 5464; GX 5464 26104 26110; GX 26110 26109 26095; GX 26107 26095 5456; GA 5484 5469 5460;
GX 5460 26109 26129; GX 5460 5466 26116; GX 26116 26115 26094; GX 5463 26129 26085; GX 2678 26085 5450; GX 26104 26094 5455;
GX 2672 26116 26131; GX 26131 26117 5458; GX 2665 26173 5401; GX 5460 5461 26086; GX 26086 26087 26138; GX 26138 26110 26135;
GX 5463 26135 5457; GA 5458 5457 5454; GX 5454 26130 26084; GX 26117 26084 5449; GX 5454 5456 5453; GX 2656 2661 5341;
GA 5341 5332 5319; GX 2661 26239 26241; GX 2657 26241 5331; GA 5342 5331 5321].
(** aes128_with_ks.txt:20254-20503 *)
Definition aes_enc_file_g81 : list gate := [
GX 5320 5321 26222; GX 26222 26223 26274; GX 2658 26241 5328; GA 5343 5328 5324; GX 26248 26241 5330; GA 5337 5330 5322;
GX 5319 5322 26245; GX 5320 26245 26265; GX 5323 26265 26221; GX 2662 26221 5310; GX 5321 26241 26243; GX 5324 26240 26246;
GX 26246 26245 26231; GX 26274 26246 26271; GX 26243 26231 5316; GX 5323 26271 5317; GX 5319 5325 26251; GX 2658 26251 26266;
GX 2662 2661 26260; GX 26260 5337 5335; GA 5335 5333 5326; GX 5342 26260 5338; GA 5338 5334 5327; GX 5327 26242 26247;
GX 26247 26243 26253; GX 5320 5326 26252; GX 26252 26251 26230; GX 26240 26230 5315; GX 2656 26252 26267; GX 26267 26253 5318;
GA 5318 5317 5314; GX 5314 5316 5313; GA 5315 5313 5312; GX 5324 5312 26215; GX 5312 26253 26268; GX 5314 26266 26220;
GX 26253 26220 5309; GA 5309 5310 5308; GX 5308 26265 26219; GX 5308 5325 26218; GX 26218 5322 26213; GX 26247 26215 26211;
GX 2658 26211 26210; GX 2656 26211 26214; GX 26213 26214 5299; GA 5299 5342 5280; GA 5299 5331 5289; GX 5308 5316 5307;
GA 5307 2663 5293; GA 5307 5339 5284; GX 5314 5308 5306; GA 5316 5306 5305; GX 5305 5313 5303; GX 26266 26268 5311;
GA 5311 5337 5281; GA 5311 5303 5302; GX 5302 5315 5301; GA 5301 5336 5282; GX 5302 5326 26217; GA 5301 5340 5291;
GA 5311 5330 5290; GX 5302 26268 26212; GX 26267 26212 5298; GA 5298 5343 5283; GA 5298 5328 5292; GX 5289 5292 26232;
GX 5305 5323 26250; GX 26250 26271 5297; GA 5297 5334 5295; GX 5292 5295 26256; GI 26256 26227; GX 5289 5295 26261;
GA 5297 5338 5286; GX 2662 26250 26258; GX 26258 26219 5304; GA 5304 5333 5294; GX 26258 26217 26209; GX 26209 26210 5296;
GA 5296 5329 5288; GA 5296 5344 5279; GA 5304 5335 5285; GX 5288 5291 26255; GX 26240 26209 26216; GX 26213 26216 5300;
GA 5300 5332 5287; GA 5300 5341 5278; GX 5278 5280 26228; GX 5279 5280 26244; GX 5282 26244 26264; GX 5283 26264 26237;
GX 5285 26244 26249; GX 26227 26249 26226; GX 5286 26249 26254; GX 26255 26254 26233; GX 26232 26233 28942; GX 5283 5287 26257;
GX 26255 26257 26269; GX 26261 26257 26229; GX 26228 26229 26272; GX 5294 26254 26259; GX 5291 26259 26270; GX 26256 26270 28939;
GX 5281 5293 26262; GX 5284 26262 26225; GX 26272 26262 5345; GX 26225 26226 26224; GI 26224 26273; GI 5345 28940;
GX 26273 26269 28937; GX 5290 5293 26263; GX 26263 26227 26238; GX 26263 26270 28938; GX 26237 26238 26236; GX 5290 26269 26235;
GX 26264 26235 5347; GI 5347 28936; GX 5288 26261 26234; GX 26259 26234 5346; GI 5346 28941; GX 28942 28941 16741;
GX 26171 26140 5402; GA 5411 5402 5389; GX 5389 5395 26183; GX 5389 5392 26177; GX 5390 26177 26197; GX 2666 26183 26198;
GX 5393 26197 26153; GX 2670 26153 5380; GA 5408 5404 5397; GX 5397 26174 26179; GA 5405 5403 5396; GX 5390 5396 26184;
GX 2664 26184 26199; GX 26184 26183 26162; GX 26172 26162 5385; GA 5413 5398 5394; GX 5394 26172 26178; GX 26178 26177 26163;
GA 5412 5401 5391; GX 5390 5391 26154; GX 5391 26173 26175; GX 26179 26175 26185; GX 26199 26185 5388; GX 26175 26163 5386;
GX 26154 26155 26206; GX 26206 26178 26203; GX 5393 26203 5387; GA 5388 5387 5384; GX 5384 5386 5383; GX 5384 26198 26152;
GX 26185 26152 5379; GA 5385 5383 5382; GX 5382 26185 26200; GX 26198 26200 5381; GA 5381 5407 5351; GA 5381 5400 5360;
GX 5394 5382 26147; GX 26179 26147 26143; GX 2666 26143 26142; GX 2664 26143 26146; GA 5379 5380 5378; GX 5378 5386 5377;
GA 5377 5409 5354; GX 5384 5378 5376; GA 5386 5376 5375; GX 5375 5383 5373; GA 5377 2671 5363; GX 5360 5363 26195;
GX 5351 5363 26194; GA 5381 5373 5372; GX 5372 5385 5371; GA 5371 5406 5352; GA 5371 5410 5361; GX 5375 5393 26182;
GX 2670 26182 26190; GX 26182 26203 5367; GA 5367 5404 5365; GX 5372 26200 26144; GX 26199 26144 5368; GA 5368 5398 5362;
GX 5362 5365 26188; GI 26188 26159; GA 5368 5413 5353; GX 26195 26159 26170; GX 5354 26194 26157; GX 5378 26197 26151;
GX 26190 26151 5374; GA 5374 5403 5364; GX 5378 5395 26150; GX 26150 5392 26145; GX 26145 26146 5369; GA 5369 5412 5350;
GA 5369 5401 5359; GX 5359 5365 26193; GX 5359 5362 26164; GX 5372 5396 26149; GX 26190 26149 26141; GX 26172 26141 26148;
GX 26145 26148 5370; GA 5370 5411 5348; GX 5348 5350 26160; GA 5370 5402 5357; GX 5353 5357 26189; GX 26193 26189 26161;
GX 26160 26161 26204; GX 26204 26194 5415; GI 5415 28961; GX 26141 26142 5366; GA 5366 5414 5349; GX 5349 5350 26176;
GX 5352 26176 26196; GA 5366 5399 5358; GX 5358 26193 26166; GX 5358 5361 26187; GX 26187 26189 26201; GX 5353 26196 26169;
GX 26169 26170 26168; GX 5360 26201 26167; GX 26196 26167 5417; GI 5417 28957; GA 5367 5408 5356; GA 5374 5405 5355;
GX 5355 26176 26181; GX 5356 26181 26186; GX 5364 26186 26191; GX 5361 26191 26202; GX 26195 26202 28959; GX 26188 26202 28960;
GX 26191 26166 5416; GI 5416 28962; GX 26187 26186 26165; GX 26164 26165 28963; GX 26159 26181 26158; GX 26157 26158 26156;
GI 26156 26205; GX 26205 26201 28958; GA 5455 5453 5452; GX 5464 5452 26079; GX 26111 26079 26075; GX 2672 26075 26078;
GX 2674 26075 26074; GX 5452 26117 26132; GX 26130 26132 5451; GA 5449 5450 5448; GX 5454 5448 5446; GA 5456 5446 5445;
GX 5445 5453 5443; GX 5445 5463 26114; GX 26114 26135 5437; GX 5448 26129 26083].
(** aes128_with_ks.txt:20504-20753 *)
Definition aes_enc_file_g82 : list gate := [
GX 5448 5465 26082; GX 26082 5462 26077; GX 26077 26078 5439; GX 5448 5456 5447; GX 2678 26114 26122; GX 26122 26083 5444;
GA 5444 5475 5425; GA 5451 5443 5442; GX 5442 26132 26076; GX 26131 26076 5438; GX 5442 5455 5441; GA 5441 5480 5431;
GX 5442 5466 26081; GX 26122 26081 26073; GX 26104 26073 26080; GX 26077 26080 5440; GX 26073 26074 5436; GA 5436 5484 5419;
GA 5437 5474 5435; GA 5444 5473 5434; GA 5447 2679 5433; GA 5438 5468 5432; GX 5432 5435 26120; GI 26120 26091;
GA 5451 5470 5430; GX 5430 5433 26127; GX 26127 26091 26102; GA 5439 5471 5429; GX 5429 5435 26125; GX 5429 5432 26096;
GA 5436 5469 5428; GX 5428 5431 26119; GX 5428 26125 26098; GA 5440 5472 5427; GA 5437 5478 5426; GA 5447 5479 5424;
GA 5438 5483 5423; GX 5423 5427 26121; GX 26125 26121 26093; GX 26119 26121 26133; GX 5430 26133 26099; GA 5441 5476 5422;
GA 5451 5477 5421; GX 5421 5433 26126; GX 5424 26126 26089; GA 5439 5482 5420; GX 5419 5420 26108; GX 5422 26108 26128;
GX 26128 26099 5487; GX 5425 26108 26113; GX 5426 26113 26118; GX 5434 26118 26123; GX 26119 26118 26097; GX 26096 26097 28984;
GX 26123 26098 5486; GX 5431 26123 26134; GX 26127 26134 28980; GI 28980 16681; GX 26120 26134 28981; GX 5423 26128 26101;
GX 26101 26102 26100; GX 26091 26113 26090; GX 26089 26090 26088; GI 26088 26137; GX 26137 26133 28979; GI 28979 16684;
GI 5486 28983; GX 28984 28983 16729; GX 26036 5554 5539; GA 5554 5539 5530; GX 5530 5536 26048; GX 2685 26035 26037;
GX 26044 26037 5540; GA 5547 5540 5532; GX 5529 5532 26041; GX 5530 26041 26061; GX 5533 26061 26017; GX 2686 26017 5520;
GX 2682 26037 5538; GA 5553 5538 5534; GX 5534 26036 26042; GX 26042 26041 26027; GX 2681 26037 5541; GA 5552 5541 5531;
GX 5530 5531 26018; GX 26018 26019 26070; GX 26070 26042 26067; GX 5533 26067 5527; GX 5531 26037 26039; GX 26043 26039 26049;
GX 26039 26027 5526; GX 5529 5535 26047; GX 26048 26047 26026; GX 2682 26047 26062; GX 26036 26026 5525; GX 2680 26048 26063;
GX 26063 26049 5528; GA 5528 5527 5524; GX 5524 26062 26016; GX 26049 26016 5519; GA 5519 5520 5518; GX 5518 26061 26015;
GX 5518 5535 26014; GX 26014 5532 26009; GX 5518 5526 5517; GA 5517 2687 5503; GA 5517 5549 5494; GX 5524 5518 5516;
GA 5526 5516 5515; GX 5515 5533 26046; GX 26046 26067 5507; GA 5507 5544 5505; GA 5507 5548 5496; GX 2686 26046 26054;
GX 26054 26015 5514; GA 5514 5545 5495; GA 5514 5543 5504; GX 5524 5526 5523; GA 5525 5523 5522; GX 5534 5522 26011;
GX 26043 26011 26007; GX 2682 26007 26006; GX 2680 26007 26010; GX 26009 26010 5509; GA 5509 5552 5490; GA 5509 5541 5499;
GX 5499 5505 26057; GX 5515 5523 5513; GX 5522 26049 26064; GX 26062 26064 5521; GA 5521 5547 5491; GX 5491 5503 26058;
GX 5494 26058 26021; GA 5521 5513 5512; GX 5512 26064 26008; GX 26063 26008 5508; GA 5508 5553 5493; GA 5508 5538 5502;
GX 5499 5502 26028; GX 5502 5505 26052; GI 26052 26023; GX 5512 5536 26013; GX 26054 26013 26005; GX 26005 26006 5506;
GA 5506 5554 5489; GA 5521 5540 5500; GX 5500 5503 26059; GX 26059 26023 26034; GX 26036 26005 26012; GX 26009 26012 5510;
GA 5510 5542 5497; GX 5493 5497 26053; GX 26057 26053 26025; GA 5510 5551 5488; GX 5488 5490 26024; GX 26024 26025 26068;
GX 26068 26058 5555; GI 5555 29003; GA 5506 5539 5498; GX 5498 26057 26030; GX 5512 5525 5511; GA 5511 5546 5492;
GA 5511 5550 5501; GX 5489 5490 26040; GX 5492 26040 26060; GX 5493 26060 26033; GX 26033 26034 26032; GX 5495 26040 26045;
GX 26023 26045 26022; GX 26021 26022 26020; GI 26020 26069; GX 5496 26045 26050; GX 5498 5501 26051; GX 26051 26050 26029;
GX 26028 26029 29005; GX 5504 26050 26055; GX 5501 26055 26066; GX 26055 26030 5556; GI 5556 29004; GX 26052 26066 29002;
GX 26059 26066 29001; GX 26051 26053 26065; GX 5500 26065 26031; GX 26060 26031 5557; GI 5557 28999; GX 26069 26065 29000;
GA 5718 5748 5712; GX 5712 5715 25848; GI 25848 25819; GX 25819 25841 25818; GX 25817 25818 25816; GI 25816 25865;
GA 5721 5760 5711; GX 5711 25851 25862; GX 25848 25862 29193; GX 29186 29193 16595; GX 16595 16590 16440; GX 29187 16440 29072;
GX 29072 970 2642; GX 29200 29193 16433; GX 16595 16594 16411; GX 16411 16412 16410; GI 16410 29087; GX 29087 987 2627;
GX 29193 29185 16307; GX 16306 16307 16630; GX 16630 16592 29063; GX 29063 963 2651; GA 5731 5750 5710; GX 5710 5713 25855;
GX 25855 25862 29192; GX 29185 29192 16597; GI 16597 16420; GX 16420 16592 16441; GX 16420 16596 16418; GX 16418 16419 29086;
GX 29086 988 2628; GI 29192 16301; GX 29199 16301 16309; GX 16301 29184 16300; GX 16299 16300 16632; GX 16632 16594 29062;
GX 29062 964 2652; GX 25855 25819 25830; GX 25829 25830 25828; GX 25488 25828 16602; GX 25828 16461 29059; GX 29059 967 2655;
GI 16602 16449; GX 16449 16598 16447; GX 16602 16558 16425; GX 25080 16425 29083; GX 29083 991 2631; GX 25080 25828 16298;
GA 5719 5751 5709; GX 5709 5712 25824; GX 5709 5715 25853; GX 25853 25849 25821; GX 25820 25821 25864; GX 25864 25854 5765;
GA 5716 5749 5708; GX 5708 5711 25847; GX 5708 25853 25826; GX 25847 25849 25861; GX 5710 25861 25827; GX 25856 25827 5767;
GI 5767 29190; GX 29183 29190 16601; GX 16601 16596 16446; GX 29184 16446 29069].
(** aes128_with_ks.txt:20754-21003 *)
Definition aes_enc_file_g83 : list gate := [
GX 29069 973 2645; GI 29190 16295; GX 29197 16295 16435; GI 16601 16424; GX 16424 16600 16422; GX 16422 16423 29084;
GX 29084 990 2630; GX 16295 25488 16294; GX 16293 16294 16634; GX 16634 16598 29060; GX 29060 966 2654; GX 2630 2628 26511;
GX 25851 25826 5766; GX 25847 25846 25825; GX 25824 25825 29196; GX 29196 29203 16549; GX 29189 29196 16557; GX 16549 29210 16451;
GX 16451 16452 29066; GX 29066 960 2648; GX 16600 16557 16450; GX 25488 16450 29067; GX 29067 975 2647; GI 16557 16443;
GX 16443 29183 16448; GX 16447 16448 29068; GX 29068 974 2646; GX 16443 29185 16445; GX 16443 29186 16442; GX 16441 16442 29071;
GX 29071 971 2643; GX 16602 16549 16437; GX 25420 16437 29075; GX 29075 983 2639; GX 2646 2645 26396; GX 16589 16549 16407;
GX 29189 16407 29090; GX 29090 984 2624; GI 16549 16305; GX 16305 29207 16308; GX 16308 16309 16629; GX 16629 16595 29079;
GX 29079 979 2635; GX 16305 29206 16302; GX 16549 29204 16297; GX 16297 16298 16633; GX 16633 16601 29076; GX 29076 982 2638;
GX 2627 2624 5062; GX 26511 5062 5054; GX 2624 2630 5063; GX 2651 2648 5272; GX 2645 2643 5204; GX 2631 5054 5053;
GX 25865 25861 29191; GX 29184 29191 16599; GI 29191 16304; GX 16304 29183 16460; GX 16459 16460 16458; GI 16458 29061;
GX 29061 965 2653; GI 16599 16436; GX 16436 16594 16444; GX 16444 16445 29070; GX 29070 972 2644; GX 2646 2644 26375;
GX 16436 29205 16434; GX 16434 16435 29077; GX 29077 981 2637; GX 16599 16598 16421; GX 29198 16421 29085; GX 29085 989 2629;
GX 2629 26511 26513; GX 2629 2627 5064; GX 2624 2629 5061; GX 29198 16304 16303; GX 16302 16303 16631; GX 16631 16597 29078;
GX 29078 980 2636; GX 2636 2637 26427; GX 2638 2636 26443; GX 2630 2629 26532; GX 5062 26532 5058; GA 5058 5054 5047;
GX 2628 2629 26495; GX 2648 2653 5271; GX 2654 2653 26328; GX 5272 26328 5268; GX 2645 26375 26377; GX 2642 26377 5188;
GX 2652 2653 26291; GX 2648 2654 5273; GX 2654 2652 26307; GX 2653 26307 26309; GX 26307 5272 5264; GX 2655 5264 5263;
GA 5268 5264 5257; GX 2653 2651 5274; GX 2637 26443 26445; GX 2638 2637 26464; GX 2637 2635 5134; GX 2644 2645 26359;
GI 5766 29195; GX 29188 29195 16591; GX 29195 29187 16454; GX 16453 16454 29065; GX 29065 961 2649; GX 2651 2649 26310;
GI 16591 16431; GX 16431 16296 16438; GX 29203 16438 29074; GX 29074 968 2640; GX 16431 29209 16428; GX 29196 29195 16427;
GX 16426 16427 29082; GX 29082 976 2632; GX 2632 2638 5133; GX 16591 16590 16408; GX 29202 16408 29089; GX 29089 985 2625;
GX 2625 26513 5051; GX 2632 2637 5131; GX 2627 2625 26514; GX 5047 26514 26519; GX 2640 2646 5203; GA 5203 5188 5184;
GX 2643 2640 5202; GA 5062 5051 5041; GX 2631 2625 26520; GX 26520 26513 5050; GX 5202 26396 5198; GX 5041 26513 26515;
GX 26519 26515 26525; GX 2640 2645 5201; GX 2642 2640 26376; GX 26376 5204 5189; GX 5184 26376 26382; GX 2655 2649 26316;
GX 26316 26309 5260; GX 5257 26310 26315; GX 2649 26309 5261; GA 5272 5261 5251; GX 5251 26309 26311; GX 26315 26311 26321;
GX 2635 2632 5132; GX 26443 5132 5124; GX 5132 26464 5128; GA 5128 5124 5117; GX 2639 5124 5123; GX 26375 5202 5194;
GA 5198 5194 5187; GX 2647 5194 5193; GA 5204 5189 5180; GI 5765 29194; GX 29187 29194 16593; GI 29194 16430;
GX 16430 29186 16456; GX 16455 16456 29064; GX 29064 962 2650; GX 2650 2648 26308; GX 26310 26308 26276; GX 2650 26309 5258;
GX 16593 16589 16439; GX 29188 16439 29073; GX 29073 969 2641; GX 2643 2641 26378; GX 16593 29208 16432; GX 16432 16433 29080;
GX 29080 978 2634; GX 29201 16430 16429; GX 16428 16429 29081; GX 29081 977 2633; GX 2635 2633 26446; GX 5117 26446 26451;
GX 16593 16592 16409; GX 29201 16409 29088; GX 29088 986 2626; GX 2626 26513 5048; GX 2641 26377 5191; GX 2647 2641 26384;
GX 5187 26378 26383; GX 26446 2634 26411; GX 2639 26411 5129; GX 2626 26520 5060; GX 2630 5060 5056; GX 2626 2624 26512;
GX 26512 5064 5049; GA 5064 5049 5040; GX 5040 5041 26494; GX 26512 26520 5057; GX 26532 5057 5055; GX 26308 26316 5267;
GX 26328 5267 5265; GX 2650 26316 5270; GX 2654 5270 5266; GA 5129 2639 5115; GX 26514 26512 26480; GX 26308 5274 5259;
GA 5274 5259 5250; GX 5250 5251 26290; GX 26494 26495 26546; GX 26384 26377 5190; GA 5057 5050 5042; GA 5063 5048 5044;
GX 5044 26512 26518; GX 26546 26518 26543; GX 26511 26480 5052; GA 5061 5052 5039; GX 5039 5042 26517; GX 5040 26517 26537;
GX 2642 26384 5200; GX 2646 5200 5196; GX 26518 26517 26503; GX 26307 26276 5262; GA 5271 5262 5249; GX 26514 2626 26479;
GX 2631 26479 5059; GA 5059 2631 5045; GX 5039 5045 26523; GX 2626 26523 26538; GA 5055 5053 5046; GX 5040 5046 26524;
GX 26524 26523 26502; GX 2624 26524 26539; GX 26539 26525 5038; GX 26512 26502 5035; GA 5265 5263 5256; GX 5250 5256 26320;
GA 5056 5060 5043; GX 5043 26537 26493; GX 2630 26493 5030; GX 5043 26543 5037; GA 5038 5037 5034; GX 26515 26503 5036;
GX 5034 5036 5033; GA 5035 5033 5032; GX 5044 5032 26487; GX 26519 26487 26483; GX 2626 26483 26482; GX 2624 26483 26486;
GX 5032 26525 26540; GX 26538 26540 5031; GX 5034 26538 26492; GX 26525 26492 5029; GA 5029 5030 5028; GX 5028 26537 26491;
GX 5028 5036 5027; GA 5027 5059 5004; GX 5034 5028 5026; GA 5036 5026 5025].
(** aes128_with_ks.txt:21004-21253 *)
Definition aes_enc_file_g84 : list gate := [
GX 5025 5033 5023; GA 5031 5023 5022; GX 5022 5046 26489; GX 5022 26540 26484; GA 5027 2631 5013; GX 5022 5035 5021;
GX 26539 26484 5018; GA 5018 5048 5012; GX 5025 5043 26522; GX 26522 26543 5017; GA 5017 5054 5015; GX 2630 26522 26530;
GX 26530 26489 26481; GX 26481 26482 5016; GX 26512 26481 26488; GX 26530 26491 5024; GX 5012 5015 26528; GI 26528 26499;
GX 5028 5045 26490; GX 26490 5042 26485; GX 26485 26488 5020; GX 26485 26486 5019; GA 5020 5061 4998; GA 5024 5053 5014;
GA 5273 5258 5254; GX 5254 26308 26314; GA 5266 5270 5253; GA 5021 5060 5011; GA 5031 5050 5010; GX 5010 5013 26535;
GX 26535 26499 26510; GA 5019 5051 5009; GX 5009 5012 26504; GX 5009 5015 26533; GA 5016 5049 5008; GX 5008 5011 26527;
GX 5008 26533 26506; GX 2648 26320 26335; GX 26335 26321 5248; GX 26290 26291 26342; GX 26342 26314 26339; GA 5196 5200 5183;
GA 5267 5260 5252; GX 5249 5252 26313; GX 5250 26313 26333; GX 26314 26313 26299; GX 26311 26299 5246; GX 5253 26333 26289;
GX 2654 26289 5240; GX 26310 2650 26275; GX 2655 26275 5269; GA 5269 2655 5255; GX 5249 5255 26319; GX 26320 26319 26298;
GX 2650 26319 26334; GX 26308 26298 5245; GA 5020 5052 5007; GA 5017 5058 5006; GA 5024 5055 5005; GA 5018 5063 5003;
GX 5003 5007 26529; GX 26527 26529 26541; GX 5010 26541 26507; GX 26533 26529 26501; GA 5021 5056 5002; GA 5031 5057 5001;
GX 5001 5013 26534; GX 5004 26534 26497; GA 5019 5062 5000; GX 4998 5000 26500; GX 26500 26501 26544; GX 26544 26534 5065;
GA 5016 5064 4999; GX 4999 5000 26516; GX 5002 26516 26536; GX 5003 26536 26509; GX 26509 26510 26508; GX 26168 26508 16963;
GX 26536 26507 5067; GX 5005 26516 26521; GX 5006 26521 26526; GX 26527 26526 26505; GX 26504 26505 28970; GX 28963 28970 16921;
GI 16921 16776; GX 16776 28957 16786; GX 16776 28959 16782; GX 16776 28960 16775; GX 26499 26521 26498; GX 5014 26526 26531;
GX 26531 26506 5066; GX 5011 26531 26542; GX 26535 26542 28966; GX 28959 28966 16957; GX 26528 26542 28967; GX 28960 28967 16955;
GX 26497 26498 26496; GI 26496 26545; GX 26545 26541 28965; GX 28958 28965 16959; GI 5067 28964; GX 28957 28964 16961;
GX 16959 28964 16822; GI 5066 28969; GX 28962 28969 16952; GI 5065 28968; GX 28961 28968 16953; GI 16953 16820;
GX 16820 28967 16818; GX 16952 28968 16816; GX 2633 26445 5121; GA 5132 5121 5111; GX 2634 26445 5118; GA 5133 5118 5114;
GX 2634 2632 26444; GX 26444 5134 5119; GA 5134 5119 5110; GX 5110 5111 26426; GX 26426 26427 26478; GX 26446 26444 26412;
GX 26443 26412 5122; GA 5131 5122 5109; GX 5109 5115 26455; GX 5111 26445 26447; GX 5114 26444 26450; GX 26478 26450 26475;
GX 2639 2633 26452; GX 2634 26452 5130; GX 26452 26445 5120; GX 2638 5130 5126; GA 5126 5130 5113; GX 5113 26475 5107;
GX 26451 26447 26457; GX 26444 26452 5127; GA 5127 5120 5112; GX 26464 5127 5125; GA 5125 5123 5116; GX 5109 5112 26449;
GX 5110 26449 26469; GX 5113 26469 26425; GX 2638 26425 5100; GX 26450 26449 26435; GX 26447 26435 5106; GX 5110 5116 26456;
GX 2632 26456 26471; GX 26471 26457 5108; GA 5108 5107 5104; GX 5104 5106 5103; GX 26456 26455 26434; GX 26444 26434 5105;
GA 5105 5103 5102; GX 5114 5102 26419; GX 26451 26419 26415; GX 2632 26415 26418; GX 5102 26457 26472; GX 2634 26415 26414;
GX 2634 26455 26470; GX 26470 26472 5101; GX 5104 26470 26424; GX 26457 26424 5099; GA 5099 5100 5098; GX 5098 26469 26423;
GA 5101 5120 5080; GA 5101 5127 5071; GX 5098 5115 26422; GX 26422 5112 26417; GX 26417 26418 5089; GA 5089 5132 5070;
GA 5089 5121 5079; GX 5104 5098 5096; GA 5106 5096 5095; GX 5095 5113 26454; GX 26454 26475 5087; GA 5087 5128 5076;
GA 5087 5124 5085; GX 5079 5085 26465; GX 5098 5106 5097; GA 5097 5129 5074; GA 5097 2639 5083; GX 5071 5083 26466;
GX 5074 26466 26429; GX 5095 5103 5093; GA 5101 5093 5092; GX 5092 26472 26416; GX 26471 26416 5088; GA 5088 5133 5073;
GA 5088 5118 5082; GX 5082 5085 26460; GI 26460 26431; GX 5079 5082 26436; GX 5092 5116 26421; GX 5092 5105 5091;
GA 5091 5130 5081; GA 5091 5126 5072; GX 2638 26454 26462; GX 26462 26423 5094; GA 5094 5123 5084; GX 26462 26421 26413;
GX 26444 26413 26420; GX 26417 26420 5090; GA 5090 5131 5068; GX 5068 5070 26432; GX 26413 26414 5086; GA 5086 5119 5078;
GX 5078 26465 26438; GX 5078 5081 26459; GA 5086 5134 5069; GA 5094 5125 5075; GA 5090 5122 5077; GX 5073 5077 26461;
GX 26459 26461 26473; GX 26465 26461 26433; GX 26432 26433 26476; GX 26476 26466 5135; GI 5135 28989; GX 5069 5070 26448;
GX 5075 26448 26453; GX 5076 26453 26458; GX 26459 26458 26437; GX 26431 26453 26430; GX 26429 26430 26428; GX 26436 26437 28991;
GX 28984 28991 16910; GI 16910 16685; GI 26428 26477; GX 26477 26473 28986; GX 28986 16684 16683; GX 5084 26458 26463;
GX 26463 26438 5136; GI 5136 28990; GX 5081 26463 26474; GX 26460 26474 28988; GX 28988 28981 16735; GX 5080 5083 26467;
GX 26467 26431 26442; GX 26467 26474 28987; GX 28987 16681 16689; GX 5072 26448 26468; GX 5073 26468 26441; GX 26441 26442 26440;
GX 26440 26100 16678; GX 5080 26473 26439; GX 26468 26439 5137; GI 5137 28985; GX 26376 26384 5197; GX 26396 5197 5195;
GX 26378 26376 26344; GX 26375 26344 5192; GA 5201 5192 5179; GX 26378 2642 26343].
(** aes128_with_ks.txt:21254-21503 *)
Definition aes_enc_file_g85 : list gate := [
GX 2647 26343 5199; GA 5195 5193 5186; GX 5180 5186 26388; GX 2640 26388 26403; GA 5199 2647 5185; GX 5179 5185 26387;
GX 26388 26387 26366; GX 26376 26366 5175; GX 2642 26387 26402; GA 5197 5190 5182; GX 5179 5182 26381; GX 26382 26381 26367;
GX 5180 26381 26401; GX 5183 26401 26357; GX 2646 26357 5170; GA 5202 5191 5181; GX 5180 5181 26358; GX 5181 26377 26379;
GX 26383 26379 26389; GX 26403 26389 5178; GX 26379 26367 5176; GX 26358 26359 26410; GX 26410 26382 26407; GX 5183 26407 5177;
GA 5178 5177 5174; GX 5174 5176 5173; GA 5175 5173 5172; GX 5184 5172 26351; GX 26383 26351 26347; GX 2642 26347 26346;
GX 5172 26389 26404; GX 2640 26347 26350; GX 26402 26404 5171; GA 5171 5197 5141; GX 5174 26402 26356; GX 26389 26356 5169;
GA 5169 5170 5168; GX 5168 5185 26354; GX 5174 5168 5166; GX 5168 5176 5167; GA 5167 2647 5153; GA 5167 5199 5144;
GX 5141 5153 26398; GX 5144 26398 26361; GX 26354 5182 26349; GX 26349 26350 5159; GA 5159 5191 5149; GA 5159 5202 5140;
GX 5168 26401 26355; GA 5176 5166 5165; GX 5165 5173 5163; GX 5165 5183 26386; GX 26386 26407 5157; GX 2646 26386 26394;
GX 26394 26355 5164; GA 5171 5163 5162; GX 5162 5175 5161; GX 5162 5186 26353; GX 26394 26353 26345; GX 26376 26345 26352;
GX 26349 26352 5160; GA 5160 5201 5138; GX 5138 5140 26364; GX 5162 26404 26348; GX 26403 26348 5158; GA 5158 5188 5152;
GX 5149 5152 26368; GX 26345 26346 5156; GA 5156 5189 5148; GA 5156 5204 5139; GX 5139 5140 26380; GA 5157 5194 5155;
GX 5149 5155 26397; GX 5152 5155 26392; GI 26392 26363; GX 5148 26397 26370; GA 5164 5193 5154; GA 5161 5200 5151;
GX 5148 5151 26391; GA 5171 5190 5150; GX 5150 5153 26399; GX 26399 26363 26374; GA 5160 5192 5147; GA 5157 5198 5146;
GA 5164 5195 5145; GX 5145 26380 26385; GX 5146 26385 26390; GX 26391 26390 26369; GX 26368 26369 29012; GX 29005 29012 16916;
GX 16916 28999 16898; GX 16916 29001 16895; GX 16916 29002 16893; GX 5154 26390 26395; GX 5151 26395 26406; GX 26392 26406 29009;
GX 29002 29009 16930; GX 26399 26406 29008; GX 29001 29008 16932; GI 29008 16696; GX 26395 26370 5206; GI 5206 29011;
GX 29004 29011 16926; GX 29011 29003 16903; GI 16926 16880; GX 29012 29011 16876; GX 26363 26385 26362; GX 26361 26362 26360;
GI 26360 26409; GA 5158 5203 5143; GX 5143 5147 26393; GX 26391 26393 26405; GX 26409 26405 29007; GX 29000 29007 16934;
GX 5150 26405 26371; GX 26397 26393 26365; GX 26364 26365 26408; GX 26408 26398 5205; GI 5205 29010; GX 29003 29010 16928;
GI 29010 16879; GX 16879 29002 16905; GA 5161 5196 5142; GX 5142 26380 26400; GX 5143 26400 26373; GX 26373 26374 26372;
GX 26032 26372 16937; GX 26400 26371 5207; GI 5207 29006; GX 28999 29006 16936; GX 5253 26339 5247; GA 5248 5247 5244;
GX 5244 5246 5243; GA 5245 5243 5242; GX 5242 26321 26336; GX 26334 26336 5241; GA 5241 5260 5220; GX 5244 26334 26288;
GX 26321 26288 5239; GA 5239 5240 5238; GX 5238 5255 26286; GX 26286 5252 26281; GX 5244 5238 5236; GA 5246 5236 5235;
GX 5235 5253 26318; GX 26318 26339 5227; GA 5227 5264 5225; GA 5227 5268 5216; GX 5238 26333 26287; GX 2654 26318 26326;
GX 26326 26287 5234; GA 5234 5265 5215; GA 5234 5263 5224; GX 5235 5243 5233; GA 5241 5233 5232; GX 5232 5245 5231;
GA 5231 5270 5221; GX 5232 26336 26280; GX 26335 26280 5228; GA 5228 5258 5222; GX 5222 5225 26324; GI 26324 26295;
GX 5232 5256 26285; GX 26326 26285 26277; GX 26308 26277 26284; GX 26281 26284 5230; GA 5230 5262 5217; GX 5254 5242 26283;
GX 26315 26283 26279; GX 2648 26279 26282; GX 2650 26279 26278; GX 26277 26278 5226; GA 5226 5259 5218; GX 5218 5221 26323;
GX 26281 26282 5229; GA 5229 5272 5210; GA 5229 5261 5219; GX 5219 5225 26329; GX 5219 5222 26300; GX 5218 26329 26302;
GA 5228 5273 5213; GX 5213 5217 26325; GX 26323 26325 26337; GX 5220 26337 26303; GX 26329 26325 26297; GX 5238 5246 5237;
GA 5237 2655 5223; GA 5237 5269 5214; GX 5220 5223 26331; GX 26331 26295 26306; GA 5231 5266 5212; GA 5241 5267 5211;
GX 5211 5223 26330; GX 5214 26330 26293; GA 5226 5274 5209; GX 5209 5210 26312; GX 5212 26312 26332; GX 5213 26332 26305;
GX 26305 26306 26304; GX 26236 26304 16642; GX 26332 26303 5277; GX 5215 26312 26317; GX 26295 26317 26294; GX 26293 26294 26292;
GI 26292 26341; GX 26341 26337 28916; GX 5216 26317 26322; GX 26323 26322 26301; GX 26300 26301 28921; GX 28921 28942 16915;
GI 16915 16648; GX 16648 28916 16645; GX 5224 26322 26327; GX 26327 26302 5276; GX 5221 26327 26338; GX 26331 26338 28917;
GX 16915 28917 16651; GX 26324 26338 28918; GA 5230 5271 5208; GX 5208 5210 26296; GX 26296 26297 26340; GX 26340 26330 5275;
GI 5277 28915; GI 5276 28920; GI 5275 28919; GX 25764 5834 5819; GA 5834 5819 5810; GX 5810 5816 25776;
GX 2712 25776 25791; GX 2717 25763 25765; GX 2714 25765 5818; GA 5833 5818 5814; GX 5814 25764 25770; GX 2713 25765 5821;
GA 5832 5821 5811; GX 5810 5811 25746; GX 25746 25747 25798; GX 25798 25770 25795; GX 5813 25795 5807; GX 25772 25765 5820;
GA 5827 5820 5812; GX 2715 2713 25766; GX 25766 25764 25732; GX 5817 25766 25771; GX 25763 25732 5822; GA 5831 5822 5809;
GX 5809 5812 25769; GX 25770 25769 25755; GX 25766 2714 25731; GX 2719 25731 5829].
(** aes128_with_ks.txt:21504-21753 *)
Definition aes_enc_file_g86 : list gate := [
GA 5829 2719 5815; GX 5809 5815 25775; GX 2714 25775 25790; GX 25776 25775 25754; GX 25764 25754 5805; GX 5810 25769 25789;
GX 5813 25789 25745; GX 2718 25745 5800; GX 5811 25765 25767; GX 25771 25767 25777; GX 25791 25777 5808; GX 25767 25755 5806;
GA 5808 5807 5804; GX 5804 25790 25744; GX 25777 25744 5799; GA 5799 5800 5798; GX 5798 25789 25743; GX 5804 5806 5803;
GA 5805 5803 5802; GX 5814 5802 25739; GX 25771 25739 25735; GX 2714 25735 25734; GX 5802 25777 25792; GX 2712 25735 25738;
GX 5798 5815 25742; GX 25742 5812 25737; GX 25737 25738 5789; GA 5789 5821 5779; GA 5789 5832 5770; GX 5798 5806 5797;
GA 5797 5829 5774; GA 5797 2719 5783; GX 25790 25792 5801; GA 5801 5820 5780; GA 5801 5827 5771; GX 5780 5783 25787;
GX 5771 5783 25786; GX 5774 25786 25749; GX 5804 5798 5796; GA 5806 5796 5795; GX 5795 5803 5793; GA 5801 5793 5792;
GX 5792 5805 5791; GA 5791 5830 5781; GA 5791 5826 5772; GX 5792 5816 25741; GX 5795 5813 25774; GX 5792 25792 25736;
GX 25791 25736 5788; GA 5788 5833 5773; GA 5788 5818 5782; GX 5779 5782 25756; GX 2718 25774 25782; GX 25782 25743 5794;
GA 5794 5825 5775; GA 5794 5823 5784; GX 25782 25741 25733; GX 25733 25734 5786; GA 5786 5834 5769; GX 25764 25733 25740;
GA 5786 5819 5778; GX 5778 5781 25779; GX 25737 25740 5790; GA 5790 5822 5777; GX 5773 5777 25781; GX 25779 25781 25793;
GX 5780 25793 25759; GX 25774 25795 5787; GA 5787 5824 5785; GX 5779 5785 25785; GX 5782 5785 25780; GX 5778 25785 25758;
GI 25780 25751; GX 25785 25781 25753; GX 25787 25751 25762; GA 5787 5828 5776; GA 5790 5831 5768; GX 5768 5770 25752;
GX 25752 25753 25796; GX 5769 5770 25768; GX 5772 25768 25788; GX 5773 25788 25761; GX 25761 25762 25760; GX 25760 25012 16588;
GI 16588 16390; GX 16390 16584 16388; GX 16588 16547 16376; GX 25692 16376 29107; GX 29107 951 2607; GX 16588 16556 16364;
GX 25352 16364 29115; GX 29115 959 2599; GX 16312 25760 16311; GX 25788 25759 5837; GI 5837 29211; GX 29211 29218 16587;
GX 16627 16587 29108; GX 29108 950 2606; GX 16321 29211 16405; GX 16404 16405 16403; GI 16403 29093; GX 16587 16582 16387;
GI 16587 16363; GX 16363 16586 16361; GX 16361 16362 29116; GX 29116 958 2598; GX 5775 25768 25773; GX 25751 25773 25750;
GX 25749 25750 25748; GI 25748 25797; GX 5776 25773 25778; GX 25779 25778 25757; GX 25756 25757 29217; GX 29217 29238 16548;
GX 29217 29224 16555; GX 16586 16548 16406; GX 25012 16406 29091; GX 29091 935 2623; GX 16586 16555 16391; GX 25760 16391 29099;
GX 29099 943 2615; GI 16555 16384; GX 16384 29211 16389; GX 16388 16389 29100; GX 29100 942 2614; GI 16548 16313;
GX 16548 29230 16365; GX 16365 16366 29114; GX 29114 944 2600; GX 29217 16349 29122; GX 16548 29234 16323; GX 16313 29233 16316;
GX 16313 25692 16310; GX 16310 16311 16628; GX 16628 16584 29092; GX 29122 952 2592; GX 2592 2598 4783; GX 2600 2606 4853;
GX 29092 934 2622; GX 5784 25778 25783; GX 25783 25758 5836; GI 5836 29216; GX 29216 29223 16577; GX 29237 29216 16393;
GX 16392 16393 29098; GX 29098 928 2616; GI 16577 16370; GX 16370 16313 16379; GX 29231 16379 29106; GX 29106 936 2608;
GX 2608 2614 4923; GX 16370 29237 16367; GX 16367 16368 29113; GX 29113 945 2601; GX 16577 16576 16350; GX 29230 16350 29121;
GX 2616 2622 4993; GX 5781 25783 25794; GX 2607 2601 26724; GX 25797 25793 29212; GX 29212 29219 16585; GX 29212 16387 29101;
GX 29101 941 2613; GI 16585 16375; GX 16375 16580 16385; GX 16375 29233 16373; GX 16373 16374 29109; GX 29109 949 2605;
GX 16585 16584 16359; GX 29226 16359 29117; GX 29117 957 2597; GX 16318 29212 16317; GX 16316 16317 16626; GX 16626 16580 29094;
GX 29094 932 2620; GX 2614 2613 26668; GX 2608 2613 4921; GX 2592 2597 4781; GX 2606 2605 26736; GX 2600 2605 4851;
GX 2622 2620 26579; GX 2598 2597 26804; GX 29093 933 2621; GX 2616 2621 4991; GX 2621 26579 26581; GX 2622 2621 26600;
GX 2620 2621 26563; GX 29121 953 2593; GX 2599 2593 26792; GX 25780 25794 29214; GX 29214 29221 16581; GX 16623 16581 29111;
GX 16369 29214 16401; GX 16400 16401 29096; GX 29096 930 2618; GX 16384 29214 16383; GX 16581 16576 16381; GX 16581 16580 16353;
GX 16353 16354 16352; GI 16352 29119; GX 29111 947 2603; GX 2605 2603 4854; GX 2603 2600 4852; GX 2618 26581 4978;
GA 4993 4978 4974; GX 2603 2601 26718; GX 4852 26736 4848; GX 2618 2616 26580; GX 4974 26580 26586; GX 29119 955 2595;
GX 2595 2592 4782; GX 4782 26804 4778; GX 2597 2595 4784; GX 2595 2593 26786; GX 25796 25786 5835; GI 5835 29215;
GX 29215 29222 16579; GX 29223 29215 16395; GX 16394 16395 29097; GX 29215 16381 29104; GX 29104 938 2610; GX 16579 16575 16380;
GX 29216 16380 29105; GX 16579 29236 16371; GX 16371 16372 29112; GX 29112 946 2602; GX 16579 16578 16351; GX 29229 16351 29120;
GX 2610 2608 26648; GX 26718 2602 26683; GX 2607 26683 4849; GA 4849 2607 4835; GX 29097 929 2617; GX 2617 26581 4981;
GX 2602 2600 26716; GX 26716 4854 4839; GX 26718 26716 26684; GA 4854 4839 4830; GX 29105 937 2609; GX 26716 26724 4847;
GX 26736 4847 4845; GX 2602 26724 4850; GX 2606 4850 4846; GA 4846 4850 4833; GX 2623 2617 26588; GX 26588 26581 4980;
GX 2618 26588 4990; GX 2622 4990 4986; GX 26580 26588 4987; GX 26600 4987 4985].
(** aes128_with_ks.txt:21754-22003 *)
Definition aes_enc_file_g87 : list gate := [
GA 4986 4990 4973; GA 4987 4980 4972; GX 29120 954 2594; GX 2594 26792 4780; GX 2594 2592 26784; GX 26786 26784 26752;
GX 26784 4784 4769; GX 26786 2594 26751; GX 26784 26792 4777; GX 26804 4777 4775; GA 4784 4769 4760; GX 2599 26751 4779;
GA 4779 2599 4765; GX 2598 4780 4776; GA 4776 4780 4763; GX 25787 25794 29213; GX 29213 29220 16583; GX 16625 16583 29110;
GX 16384 29213 16386; GX 16385 16386 29102; GI 16583 16358; GX 16358 16578 16382; GX 16382 16383 29103; GX 16358 16582 16356;
GX 16356 16357 29118; GX 29118 956 2596; GX 2596 2597 26767; GX 29221 29213 16324; GX 16323 16324 16624; GX 16624 16578 29095;
GX 29095 931 2619; GX 2598 2596 26783; GX 26783 26752 4772; GX 26783 4782 4774; GX 2599 4774 4773; GA 4781 4772 4759;
GA 4778 4774 4767; GX 4767 26786 26791; GX 2597 26783 26785; GX 26792 26785 4770; GA 4777 4770 4762; GX 4759 4762 26789;
GX 4760 26789 26809; GX 2594 26785 4768; GA 4783 4768 4764; GX 4763 26809 26765; GX 4764 26784 26790; GA 4775 4773 4766;
GX 4760 4766 26796; GX 2598 26765 4750; GX 26790 26789 26775; GX 4759 4765 26795; GX 26796 26795 26774; GX 26784 26774 4755;
GX 2593 26785 4771; GA 4782 4771 4761; GX 4760 4761 26766; GX 26766 26767 26818; GX 26818 26790 26815; GX 4763 26815 4757;
GX 4761 26785 26787; GX 26787 26775 4756; GX 2592 26796 26811; GX 29110 948 2604; GX 2606 2604 26715; GX 26715 26684 4842;
GX 26715 4852 4844; GA 4851 4842 4829; GX 4829 4835 26727; GX 2602 26727 26742; GA 4848 4844 4837; GX 4837 26718 26723;
GX 2605 26715 26717; GX 26724 26717 4840; GX 2602 26717 4838; GA 4853 4838 4834; GX 4834 26716 26722; GX 2601 26717 4841;
GA 4852 4841 4831; GX 4830 4831 26698; GX 4831 26717 26719; GX 26723 26719 26729; GX 26791 26787 26797; GX 26811 26797 4758;
GA 4758 4757 4754; GX 4754 4756 4753; GA 4755 4753 4752; GX 4752 26797 26812; GX 4764 4752 26759; GX 26791 26759 26755;
GX 2592 26755 26758; GX 2594 26755 26754; GX 2594 26795 26810; GX 26810 26812 4751; GA 4751 4770 4730; GA 4751 4777 4721;
GX 4754 26810 26764; GX 26797 26764 4749; GA 4749 4750 4748; GX 4748 26809 26763; GX 4748 4756 4747; GA 4747 4779 4724;
GA 4747 2599 4733; GX 4721 4733 26806; GX 4730 4733 26807; GX 4724 26806 26769; GX 4754 4748 4746; GA 4756 4746 4745;
GX 4745 4753 4743; GX 4745 4763 26794; GX 2598 26794 26802; GX 26794 26815 4737; GX 26802 26763 4744; GA 4744 4775 4725;
GA 4744 4773 4734; GA 4737 4774 4735; GA 4751 4743 4742; GX 4742 4766 26761; GX 26802 26761 26753; GX 4742 4755 4741;
GA 4741 4776 4722; GX 4742 26812 26756; GX 26811 26756 4738; GA 4738 4768 4732; GX 4732 4735 26800; GI 26800 26771;
GX 26807 26771 26782; GA 4738 4783 4723; GX 26784 26753 26760; GX 26753 26754 4736; GA 4736 4784 4719; GA 4736 4769 4728;
GA 4741 4780 4731; GX 4728 4731 26799; GX 4748 4765 26762; GX 26762 4762 26757; GX 26757 26760 4740; GX 26757 26758 4739;
GA 4739 4771 4729; GX 4729 4732 26776; GX 4729 4735 26805; GA 4740 4781 4718; GX 4728 26805 26778; GA 4740 4772 4727;
GX 4723 4727 26801; GX 26805 26801 26773; GX 26799 26801 26813; GX 4730 26813 26779; GA 4847 4840 4832; GX 4829 4832 26721;
GX 26722 26721 26707; GX 26719 26707 4826; GX 4830 26721 26741; GX 4833 26741 26697; GX 2606 26697 4820; GA 4737 4778 4726;
GA 4739 4782 4720; GX 4718 4720 26772; GX 26772 26773 26816; GX 4719 4720 26788; GX 4722 26788 26808; GX 4723 26808 26781;
GX 26808 26779 4787; GI 4787 28992; GX 28985 28992 16947; GX 16910 28992 16677; GX 16677 16678 16990; GX 26781 26782 26780;
GX 26440 26780 16949; GX 4725 26788 26793; GX 26771 26793 26770; GX 4726 26793 26798; GX 26799 26798 26777; GX 26776 26777 28998;
GX 28991 28998 16919; GX 16910 28998 16755; GI 16919 16718; GX 16718 28985 16725; GX 16718 28987 16720; GX 16718 28988 16717;
GX 4734 26798 26803; GX 4731 26803 26814; GX 26807 26814 28994; GX 28987 28994 16943; GX 16685 28994 16682; GX 16682 16683 16988;
GX 26800 26814 28995; GX 28988 28995 16941; GX 16685 28995 16688; GX 16688 16689 16986; GX 26803 26778 4786; GI 4786 28997;
GX 28990 28997 16938; GX 16938 16910 16712; GX 26769 26770 26768; GI 26768 26817; GX 26817 26813 28993; GX 28986 28993 16945;
GX 16945 28992 16767; GX 2604 2605 26699; GX 26698 26699 26750; GX 26750 26722 26747; GX 4833 26747 4827; GX 2607 4844 4843;
GA 4845 4843 4836; GX 4830 4836 26728; GX 2600 26728 26743; GX 26743 26729 4828; GX 26728 26727 26706; GX 26716 26706 4825;
GA 4828 4827 4824; GX 4824 4826 4823; GX 4824 26742 26696; GX 26729 26696 4819; GA 4819 4820 4818; GX 4818 26741 26695;
GX 4818 4835 26694; GX 26694 4832 26689; GX 4824 4818 4816; GA 4826 4816 4815; GX 4815 4833 26726; GX 4815 4823 4813;
GX 4818 4826 4817; GA 4817 2607 4803; GA 4817 4849 4794; GX 26726 26747 4807; GA 4807 4848 4796; GA 4807 4844 4805;
GA 4825 4823 4822; GX 4822 26729 26744; GX 26742 26744 4821; GA 4821 4813 4812; GX 4812 4836 26693; GA 4821 4847 4791;
GA 4821 4840 4800; GX 4800 4803 26739; GX 4812 4825 4811; GA 4811 4846 4792; GA 4811 4850 4801; GX 4812 26744 26688;
GX 26743 26688 4808; GA 4808 4838 4802; GX 4802 4805 26732; GI 26732 26703; GA 4808 4853 4793; GX 4791 4803 26738;
GX 4794 26738 26701; GX 2606 26726 26734; GX 26734 26695 4814; GX 26734 26693 26685].
(** aes128_with_ks.txt:22004-22253 *)
Definition aes_enc_file_g88 : list gate := [
GX 26716 26685 26692; GX 26689 26692 4810; GA 4810 4842 4797; GX 4793 4797 26733; GA 4810 4851 4788; GA 4814 4845 4795;
GA 4814 4843 4804; GX 2619 2617 26582; GX 26582 26580 26548; GX 2619 2616 4992; GX 4992 26600 4988; GX 2621 2619 4994;
GX 26580 4994 4979; GA 4994 4979 4970; GX 26579 4992 4984; GA 4988 4984 4977; GX 2623 4984 4983; GA 4985 4983 4976;
GX 4977 26582 26587; GX 4970 4976 26592; GX 2616 26592 26607; GX 26579 26548 4982; GA 4991 4982 4969; GX 4969 4972 26585;
GX 4970 26585 26605; GX 4973 26605 26561; GX 26586 26585 26571; GX 2622 26561 4960; GX 26582 2618 26547; GX 2623 26547 4989;
GA 4989 2623 4975; GX 4969 4975 26591; GX 2618 26591 26606; GX 26592 26591 26570; GX 26580 26570 4965; GA 4992 4981 4971;
GX 4971 26581 26583; GX 26587 26583 26593; GX 26607 26593 4968; GX 26583 26571 4966; GX 4970 4971 26562; GX 26562 26563 26614;
GX 26614 26586 26611; GX 4973 26611 4967; GA 4968 4967 4964; GX 4964 4966 4963; GX 4964 26606 26560; GX 26593 26560 4959;
GA 4959 4960 4958; GX 4958 4966 4957; GX 4958 26605 26559; GA 4957 4989 4934; GX 4964 4958 4956; GA 4966 4956 4955;
GX 4955 4963 4953; GX 4955 4973 26590; GX 26590 26611 4947; GA 4947 4988 4936; GX 2622 26590 26598; GX 26598 26559 4954;
GA 4954 4983 4944; GA 4954 4985 4935; GX 4958 4975 26558; GX 26558 4972 26553; GA 4965 4963 4962; GX 4974 4962 26555;
GX 4962 26593 26608; GX 26606 26608 4961; GA 4961 4980 4940; GA 4961 4987 4931; GX 26587 26555 26551; GX 2616 26551 26554;
GX 26553 26554 4949; GA 4949 4981 4939; GX 2618 26551 26550; GA 4961 4953 4952; GX 4952 26608 26552; GX 4952 4976 26557;
GX 26598 26557 26549; GX 26549 26550 4946; GA 4946 4979 4938; GX 4952 4965 4951; GA 4951 4990 4941; GA 4951 4986 4932;
GX 4938 4941 26595; GX 26580 26549 26556; GX 26553 26556 4950; GA 4950 4982 4937; GX 26607 26552 4948; GA 4948 4993 4933;
GX 4933 4937 26597; GX 26595 26597 26609; GX 4940 26609 26575; GA 4947 4984 4945; GX 4939 4945 26601; GX 4938 26601 26574;
GX 26601 26597 26569; GA 4957 2623 4943; GX 4931 4943 26602; GX 4940 4943 26603; GX 4934 26602 26565; GA 4948 4978 4942;
GX 4942 4945 26596; GI 26596 26567; GX 26603 26567 26578; GX 4939 4942 26572; GA 4949 4992 4930; GA 4946 4994 4929;
GX 4929 4930 26584; GX 4935 26584 26589; GX 26567 26589 26566; GX 4936 26589 26594; GX 4944 26594 26599; GX 4932 26584 26604;
GX 4941 26599 26610; GX 26596 26610 28946; GX 26603 26610 28945; GX 4933 26604 26577; GX 26577 26578 26576; GX 26604 26575 4997;
GX 26599 26574 4996; GI 4996 28948; GX 28969 28948 16815; GX 26595 26594 26573; GX 26572 26573 28949; GX 28949 28970 16913;
GX 16963 16913 16824; GI 16913 16659; GX 16913 28962 16789; GX 16913 28966 16669; GX 16659 28965 16662; GX 16659 26508 16656;
GX 26565 26566 26564; GI 26564 26613; GX 26613 26609 28944; GA 4950 4991 4928; GX 4928 4930 26568; GX 26568 26569 26612;
GX 26612 26602 4995; GI 4995 28947; GI 4997 28943; GX 29103 939 2611; GX 2611 2609 26650; GX 2613 2611 4924;
GX 26650 2610 26615; GX 2615 26615 4919; GA 4919 2615 4905; GX 26648 4924 4909; GA 4924 4909 4900; GX 26650 26648 26616;
GX 2611 2608 4922; GX 29102 940 2612; GX 2614 2612 26647; GX 26647 4922 4914; GX 2612 2613 26631; GX 2615 4914 4913;
GX 2613 26647 26649; GX 2609 26649 4911; GX 2610 26649 4908; GA 4923 4908 4904; GX 4904 26648 26654; GX 26647 26616 4912;
GA 4921 4912 4899; GX 4899 4905 26659; GX 2610 26659 26674; GX 5592 25981 25996; GX 25994 25996 5591; GA 5591 5583 5582;
GX 5582 25996 25940; GX 5582 5606 25945; GA 5591 5617 5561; GX 5582 5595 5581; GA 5581 5620 5571; GX 25986 25945 25937;
GA 5591 5610 5570; GA 5581 5616 5562; GX 25995 25940 5578; GA 5578 5623 5563; GA 5578 5608 5572; GX 5569 5572 25960;
GX 5572 5575 25984; GX 25968 25937 25944; GX 25941 25944 5580; GA 5580 5612 5567; GX 5563 5567 25985; GA 5580 5621 5558;
GX 5561 5573 25990; GX 5564 25990 25953; GX 5570 5573 25991; GI 25984 25955; GX 25991 25955 25966; GX 5558 5560 25956;
GX 25989 25985 25957; GX 25956 25957 26000; GX 26000 25990 5625; GI 5625 29264; GX 29257 29264 16562; GI 16562 16543;
GX 16567 16562 16528; GX 29243 16528 29136; GX 16565 29264 16519; GX 16519 16520 16518; GI 16518 29144; GX 16563 16562 16495;
GX 29258 16495 29153; GX 29136 906 2578; GX 29144 914 2570; GX 29153 921 2561; GX 25937 25938 5576; GA 5576 5624 5559;
GA 5576 5609 5568; GX 5568 5571 25983; GX 25983 25985 25997; GX 5570 25997 25963; GX 5568 25989 25962; GX 5559 5560 25972;
GX 5565 25972 25977; GX 5566 25977 25982; GX 5574 25982 25987; GX 25955 25977 25954; GX 5562 25972 25992; GX 25953 25954 25952;
GI 25952 26001; GX 26001 25997 29261; GX 29254 29261 16568; GX 16573 16568 16533; GX 29240 16533 29133; GX 16571 29261 16523;
GI 16523 16521; GX 16521 16522 29141; GX 16569 16568 16501; GX 29133 909 2581; GX 16568 29239 16346; GX 29261 16333 16332;
GX 29141 917 2573; GX 5571 25987 25998; GX 25991 25998 29262; GX 29255 29262 16566; GX 16571 16566 16531; GX 16531 16532 29134;
GX 16567 16566 16498; GX 29262 29249 16338; GX 16545 29262 16335; GX 16335 16336 16619; GX 16619 16569 29142; GX 29134 908 2580;
GX 2580 2581 26903; GX 25984 25998 29263; GX 29256 29263 16564; GX 16543 29263 16541].
(** aes128_with_ks.txt:22254-22503 *)
Definition aes_enc_file_g89 : list gate := [
GX 16541 16542 29128; GX 16569 16564 16529; GX 16529 16530 29135; GX 16565 16564 16496; GX 29257 16496 29152; GX 29152 922 2562;
GX 16545 29263 16341; GI 16341 16339; GX 16339 16340 16617; GX 16617 16567 29143; GX 29143 915 2571; GX 2573 2571 4574;
GX 29135 907 2579; GX 2581 2579 4644; GX 29142 916 2572; GX 2572 2573 26971; GX 29128 898 2586; GX 5563 25992 25965;
GX 25965 25966 25964; GX 25624 25964 16572; GX 16572 16553 16536; GX 24944 16536 29131; GX 25964 16524 29139; GX 16573 16572 16505;
GX 25964 29246 16328; GX 29139 919 2575; GX 29131 911 2583; GX 25992 25963 5627; GI 5627 29260; GX 29253 29260 16570;
GX 16574 16570 16534; GX 16534 16535 29132; GX 29132 910 2582; GX 16571 16570 16503; GX 29254 16503 29149; GX 29260 29247 16347;
GX 16346 16347 29125; GX 16545 29260 16329; GX 16329 16330 16621; GX 16621 16573 29140; GX 29140 918 2574; GX 2574 2573 27008;
GX 2582 2580 26919; GX 2581 26919 26921; GX 2578 26921 4628; GX 2582 2581 26940; GX 2574 2572 26987; GX 29149 925 2565;
GX 29125 901 2589; GX 25987 25962 5626; GI 5626 29265; GX 29258 29265 16561; GX 16561 29264 16539; GX 16539 16540 29129;
GX 29129 897 2585; GX 29265 29244 16538; GX 16565 16561 16526; GX 29244 16526 29137; GX 16517 29265 16514; GX 16514 16515 29145;
GX 16561 16545 16494; GX 29245 16494 29154; GX 29137 905 2577; GX 2583 2577 26928; GX 26928 26921 4630; GX 2578 26928 4640;
GX 2582 4640 4636; GX 2577 26921 4631; GA 4636 4640 4623; GX 29145 913 2569; GX 2579 2577 26922; GX 26922 2578 26887;
GX 2583 26887 4639; GX 2571 2569 26990; GX 26990 2570 26955; GX 2575 26955 4569; GA 4569 2575 4555; GX 2575 2569 26996;
GX 2570 26996 4570; GX 29154 920 2560; GX 2560 2565 4501; GX 2562 2560 27056; GA 4639 2583 4625; GX 25983 25982 25961;
GX 25960 25961 29266; GX 29245 29266 16546; GX 29259 29266 16554; GX 16545 29266 16537; GX 16537 16538 29130; GI 16546 16334;
GX 16517 16334 16525; GX 29259 16525 29138; GX 16546 29258 16512; GX 16512 16513 29146; GX 16574 16554 16508; GX 25624 16508 29147;
GX 16554 16507 16506; GX 16505 16506 16504; GI 16504 29148; GX 16554 29255 16502; GX 16501 16502 29150; GX 29150 924 2564;
GX 16554 16500 16499; GX 16498 16499 16497; GI 16497 29151; GX 29130 896 2584; GX 16572 16546 16348; GX 25284 16348 29123;
GX 16546 29241 16337; GX 16337 16338 16618; GX 16618 16564 29127; GX 16334 29240 16331; GX 16331 16332 16620; GX 16620 16566 29126;
GX 16546 24944 16327; GX 16327 16328 16622; GX 16622 16570 29124; GX 29138 904 2576; GX 2576 2582 4643; GX 2576 2581 4641;
GX 29148 926 2566; GX 2584 2589 4711; GA 4643 4628 4624; GX 29124 902 2590; GX 2584 2590 4713; GX 29147 927 2567;
GX 2566 2565 27076; GX 2590 2589 26872; GX 29126 900 2588; GX 2564 2565 27039; GX 29123 903 2591; GX 2591 2585 26860;
GX 2586 26860 4710; GX 2590 4710 4706; GA 4706 4710 4693; GX 2566 2564 27055; GX 2565 27055 27057; GX 2561 27057 4491;
GX 29127 899 2587; GX 2589 2587 4714; GX 2587 2584 4712; GX 4712 26872 4708; GX 2587 2585 26854; GX 26854 2586 26819;
GX 2591 26819 4709; GA 4709 2591 4695; GX 2562 27057 4488; GX 29146 912 2568; GX 2571 2568 4572; GX 26987 4572 4564;
GX 4572 27008 4568; GA 4568 4564 4557; GX 4557 26990 26995; GX 2568 2574 4573; GX 2560 2566 4503; GX 2568 2573 4571;
GX 2575 4564 4563; GA 4503 4488 4484; GX 4484 27056 27062; GX 2567 2561 27064; GX 27064 27057 4490; GX 27056 27064 4497;
GX 27076 4497 4495; GA 4497 4490 4482; GX 2562 27064 4500; GX 2566 4500 4496; GA 4496 4500 4483; GX 2579 2576 4642;
GX 4642 26940 4638; GA 4642 4631 4621; GX 4621 26921 26923; GX 26919 4642 4634; GA 4638 4634 4627; GX 2583 4634 4633;
GX 4627 26922 26927; GX 26927 26923 26933; GX 2578 2576 26920; GX 26920 26928 4637; GX 26940 4637 4635; GX 26920 4644 4629;
GA 4644 4629 4620; GX 4620 4621 26902; GA 4635 4633 4626; GX 4620 4626 26932; GX 2576 26932 26947; GX 26947 26933 4618;
GX 26902 26903 26954; GA 4637 4630 4622; GX 4624 26920 26926; GX 26922 26920 26888; GX 26919 26888 4632; GA 4641 4632 4619;
GX 4619 4622 26925; GX 4620 26925 26945; GX 4619 4625 26931; GX 2578 26931 26946; GX 4623 26945 26901; GX 26932 26931 26910;
GX 26920 26910 4615; GX 26926 26925 26911; GX 26923 26911 4616; GX 2582 26901 4610; GX 2590 2588 26851; GX 2589 26851 26853;
GX 2586 26853 4698; GX 2585 26853 4701; GX 26851 4712 4704; GA 4708 4704 4697; GX 2591 4704 4703; GA 4713 4698 4694;
GX 4697 26854 26859; GX 26860 26853 4700; GA 4712 4701 4691; GX 4691 26853 26855; GX 26859 26855 26865; GX 2586 2584 26852;
GX 4694 26852 26858; GX 26852 26860 4707; GX 26854 26852 26820; GX 26851 26820 4702; GA 4707 4700 4692; GX 26872 4707 4705;
GA 4705 4703 4696; GX 26852 4714 4699; GA 4714 4699 4690; GX 4690 4691 26834; GX 4690 4696 26864; GX 2584 26864 26879;
GX 26879 26865 4688; GX 29151 923 2563; GX 2563 2560 4502; GA 4502 4491 4481; GX 4481 27057 27059; GX 27055 4502 4494;
GX 2565 2563 4504; GX 4502 27076 4498; GX 27056 4504 4489; GX 2567 4494 4493; GA 4495 4493 4486; GA 4498 4494 4487;
GX 2563 2561 27058; GX 4487 27058 27063; GX 27063 27059 27069; GX 27058 27056 27024; GX 27055 27024 4492; GA 4501 4492 4479;
GX 4479 4482 27061; GX 27062 27061 27047; GX 27059 27047 4476; GX 26954 26926 26951].
(** aes128_with_ks.txt:22504-22753 *)
Definition aes_enc_file_g90 : list gate := [
GX 4623 26951 4617; GA 4618 4617 4614; GX 4614 4616 4613; GA 4615 4613 4612; GX 4624 4612 26895; GX 4612 26933 26948;
GX 26946 26948 4611; GA 4611 4637 4581; GA 4611 4630 4590; GX 4614 26946 26900; GX 26933 26900 4609; GA 4609 4610 4608;
GX 4614 4608 4606; GX 4608 4616 4607; GX 4608 26945 26899; GA 4607 4639 4584; GA 4607 2583 4593; GA 4616 4606 4605;
GX 4605 4613 4603; GX 4605 4623 26930; GX 26930 26951 4597; GA 4597 4634 4595; GA 4597 4638 4586; GX 4608 4625 26898;
GX 26898 4622 26893; GA 4611 4603 4602; GX 4602 4615 4601; GX 4602 26948 26892; GX 26947 26892 4598; GA 4598 4643 4583;
GX 4590 4593 26943; GX 2582 26930 26938; GX 26938 26899 4604; GA 4604 4635 4585; GA 4604 4633 4594; GA 4598 4628 4592;
GX 4592 4595 26936; GA 4601 4640 4591; GX 4602 4626 26897; GX 26938 26897 26889; GX 26920 26889 26896; GX 4581 4593 26942;
GX 4584 26942 26905; GX 26927 26895 26891; GX 2578 26891 26890; GX 26889 26890 4596; GA 4596 4629 4588; GX 4588 4591 26935;
GA 4596 4644 4579; GX 2576 26891 26894; GX 26893 26894 4599; GA 4599 4631 4589; GA 4599 4642 4580; GX 4589 4592 26912;
GX 4589 4595 26941; GX 4579 4580 26924; GX 4585 26924 26929; GX 4588 26941 26914; GX 4586 26929 26934; GX 26935 26934 26913;
GX 26912 26913 28956; GX 28956 28963 16912; GX 28949 28956 16920; GX 16912 28970 16814; GX 16814 16815 28826; GX 16963 16920 16813;
GX 26576 16813 28827; GI 16920 16806; GX 16806 28943 16811; GX 16806 28945 16808; GX 16806 28946 16805; GX 16952 16912 16770;
GX 28949 16770 28850; GI 16912 16668; GX 16668 28967 16671; GX 16668 28966 16665; GX 16912 28964 16660; GX 28826 1088 2520;
GX 28850 1112 2496; GX 4594 26934 26939; GX 26939 26914 4646; GI 4646 28955; GX 28948 28955 16954; GX 28955 28947 16817;
GX 16816 16817 28825; GI 16954 16794; GX 16794 16659 16801; GX 28963 16801 28834; GX 16794 28969 16791; GX 28956 28955 16790;
GX 16789 16790 28842; GX 16954 16953 16771; GX 28962 16771 28849; GX 4591 26939 26950; GX 26936 26950 28953; GX 28946 28953 16958;
GX 16958 16953 16803; GX 28947 16803 28832; GX 28960 28953 16796; GX 16958 16957 16774; GX 16774 16775 16773; GI 16773 28847;
GX 28953 28945 16670; GX 16669 16670 16993; GX 16993 16955 28823; GX 28832 1098 2514; GX 28847 1115 2499; GX 2499 2496 3942;
GX 28849 1113 2497; GX 2499 2497 27602; GX 28823 1091 2523; GX 2523 2520 4152; GX 26943 26950 28952; GX 28945 28952 16960;
GI 16960 16783; GX 16783 16955 16804; GX 16804 16805 28831; GX 16783 16959 16781; GX 16781 16782 28846; GI 28952 16664;
GX 28959 16664 16672; GX 16671 16672 16992; GX 16992 16958 28839; GX 16664 28944 16663; GX 16662 16663 16995; GX 16995 16957 28822;
GX 28822 1092 2524; GX 28839 1107 2507; GX 28846 1116 2500; GX 28834 1096 2512; GX 2514 2512 27464; GX 28825 1089 2521;
GX 2523 2521 27398; GX 28831 1099 2515; GX 28827 1103 2519; GX 28842 1104 2504; GX 2507 2504 4012; GI 26936 26907;
GX 26907 26929 26906; GX 26905 26906 26904; GI 26904 26953; GX 26943 26907 26918; GA 4711 4702 4689; GX 4689 4692 26857;
GX 26858 26857 26843; GX 4689 4695 26863; GX 2586 26863 26878; GX 26864 26863 26842; GX 26852 26842 4685; GX 26855 26843 4686;
GX 4690 26857 26877; GX 4693 26877 26833; GX 2590 26833 4680; GX 2515 2512 4082; GA 4601 4636 4582; GX 4582 26924 26944;
GX 4583 26944 26917; GX 26917 26918 26916; GX 26576 26916 16965; GX 26916 16824 28819; GI 16965 16812; GX 16812 16961 16810;
GX 16810 16811 28828; GX 16965 16912 16800; GX 26508 16800 28835; GX 16965 16921 16788; GX 26168 16788 28843; GX 26168 26916 16661;
GX 16660 16661 16996; GX 28819 1095 2527; GX 28835 1111 2511; GX 28843 1119 2503; GX 2527 2521 27404; GX 28828 1102 2518;
GX 2512 2518 4083; GX 2503 2497 27608; GX 2574 4570 4566; GA 4566 4570 4553; GX 27058 2562 27023; GA 4504 4489 4480;
GX 4480 4486 27068; GX 2560 27068 27083; GX 27083 27069 4478; GX 4480 27061 27081; GX 4483 27081 27037; GX 2566 27037 4470;
GX 4480 4481 27038; GX 27038 27039 27090; GX 27090 27062 27087; GX 4483 27087 4477; GA 4478 4477 4474; GX 4474 4476 4473;
GX 2567 27023 4499; GA 4499 2567 4485; GX 4479 4485 27067; GX 2562 27067 27082; GX 27068 27067 27046; GX 27056 27046 4475;
GA 4475 4473 4472; GX 4472 27069 27084; GX 27082 27084 4471; GA 4471 4497 4441; GA 4471 4490 4450; GX 4484 4472 27031;
GX 27063 27031 27027; GX 2560 27027 27030; GX 2562 27027 27026; GX 4474 27082 27036; GX 2570 2568 26988; GX 26990 26988 26956;
GX 26988 26996 4567; GX 26987 26956 4562; GA 4571 4562 4549; GX 27008 4567 4565; GA 4565 4563 4556; GX 4549 4555 26999;
GX 2570 26999 27014; GX 26988 4574 4559; GA 4574 4559 4550; GX 4550 4556 27000; GX 27000 26999 26978; GX 2568 27000 27015;
GX 26988 26978 4545; GX 2573 26987 26989; GX 2570 26989 4558; GA 4573 4558 4554; GX 26996 26989 4560; GA 4567 4560 4552;
GX 2569 26989 4561; GA 4572 4561 4551; GX 4550 4551 26970; GX 26970 26971 27022; GX 4554 26988 26994; GX 27022 26994 27019;
GX 4553 27019 4547; GX 4549 4552 26993; GX 4550 26993 27013; GX 4553 27013 26969; GX 2574 26969 4540; GX 26994 26993 26979;
GX 4551 26989 26991; GX 26991 26979 4546; GX 26995 26991 27001; GX 27015 27001 4548; GA 4548 4547 4544; GX 4544 4546 4543;
GX 4544 27014 26968; GX 27001 26968 4539; GA 4545 4543 4542; GX 4542 27001 27016].
(** aes128_with_ks.txt:22754-23003 *)
Definition aes_enc_file_g91 : list gate := [
GA 4539 4540 4538; GX 4538 27013 26967; GX 4538 4555 26966; GX 26966 4552 26961; GX 4554 4542 26963; GX 26995 26963 26959;
GX 2568 26959 26962; GX 26961 26962 4529; GA 4529 4572 4510; GX 2570 26959 26958; GA 4529 4561 4519; GX 4538 4546 4537;
GA 4537 4569 4514; GA 4537 2575 4523; GX 4544 4538 4536; GA 4546 4536 4535; GX 4535 4543 4533; GX 27014 27016 4541;
GA 4541 4567 4511; GX 4511 4523 27010; GX 4514 27010 26973; GA 4541 4533 4532; GX 4532 27016 26960; GX 27015 26960 4528;
GA 4528 4573 4513; GX 4532 4556 26965; GA 4528 4558 4522; GX 4519 4522 26980; GA 4541 4560 4520; GX 4520 4523 27011;
GX 4532 4545 4531; GA 4531 4570 4521; GA 4531 4566 4512; GX 27069 27036 4469; GA 4469 4470 4468; GX 4474 4468 4466;
GX 4468 4476 4467; GA 4467 4499 4444; GA 4467 2567 4453; GX 4450 4453 27079; GX 4468 27081 27035; GX 4441 4453 27078;
GX 4444 27078 27041; GA 4476 4466 4465; GX 4465 4473 4463; GA 4471 4463 4462; GX 4462 27084 27028; GX 27083 27028 4458;
GA 4458 4503 4443; GA 4458 4488 4452; GX 4465 4483 27066; GX 27066 27087 4457; GX 2566 27066 27074; GA 4457 4494 4455;
GX 4452 4455 27072; GI 27072 27043; GX 27079 27043 27054; GA 4457 4498 4446; GX 4468 4485 27034; GX 27074 27035 4464;
GX 4462 4486 27033; GX 27074 27033 27025; GX 27056 27025 27032; GX 27025 27026 4456; GA 4456 4489 4448; GA 4456 4504 4439;
GX 4462 4475 4461; GA 4461 4500 4451; GX 4448 4451 27071; GA 4464 4493 4454; GX 27034 4482 27029; GX 27029 27030 4459;
GX 27029 27032 4460; GA 4459 4502 4440; GX 4439 4440 27060; GA 4459 4491 4449; GA 4460 4501 4438; GX 4449 4452 27048;
GX 4449 4455 27077; GX 4448 27077 27050; GX 4438 4440 27044; GA 4464 4495 4445; GX 4445 27060 27065; GX 4446 27065 27070;
GX 27071 27070 27049; GX 27048 27049 29026; GX 29005 29026 16909; GI 16909 16697; GX 16880 16697 16888; GX 16909 29001 16700;
GX 16697 29000 16694; GX 16909 26032 16690; GX 27043 27065 27042; GX 27041 27042 27040; GI 27040 27089; GX 4454 27070 27075;
GX 27075 27050 4506; GI 4506 29025; GX 29025 29004 16901; GX 16880 29025 16877; GX 4451 27075 27086; GX 27072 27086 29023;
GX 27079 27086 29022; GX 29022 29009 16701; GX 16700 16701 16981; GA 4461 4496 4442; GX 4442 27060 27080; GX 4443 27080 27053;
GX 27053 27054 27052; GX 27052 29006 16691; GX 16690 16691 16985; GA 4460 4492 4447; GX 4443 4447 27073; GX 27077 27073 27045;
GX 27044 27045 27088; GX 27088 27078 4505; GX 27071 27073 27085; GX 4450 27085 27051; GX 27080 27051 4507; GX 27089 27085 29021;
GX 16934 29021 16886; GI 16886 16884; GX 29021 16696 16695; GX 16694 16695 16983; GI 4507 29020; GX 29020 29007 16710;
GI 4505 29024; GX 16928 29024 16882; GX 4535 4553 26998; GX 2574 26998 27006; GX 27006 26965 26957; GX 26957 26958 4526;
GA 4526 4574 4509; GX 4509 4510 26992; GA 4526 4559 4518; GX 4518 4521 27003; GX 26988 26957 26964; GX 26961 26964 4530;
GA 4530 4562 4517; GX 4512 26992 27012; GX 4513 27012 26985; GX 4513 4517 27005; GX 27003 27005 27017; GX 4520 27017 26983;
GX 27012 26983 4577; GI 4577 28929; GX 28929 28936 16975; GX 28937 28929 16850; GX 27006 26967 4534; GA 4534 4565 4515;
GA 4534 4563 4524; GA 4530 4571 4508; GX 4508 4510 26976; GX 4515 26992 26997; GX 26998 27019 4527; GA 4527 4568 4516;
GA 4527 4564 4525; GX 4519 4525 27009; GX 27009 27005 26977; GX 26976 26977 27020; GX 27020 27010 4575; GI 4575 28933;
GX 28933 28940 16967; GI 16967 16780; GX 16780 28918 16777; GX 4518 27009 26982; GX 4522 4525 27004; GI 27004 26975;
GX 27011 26975 26986; GX 26985 26986 26984; GX 26984 26236 16977; GX 16977 16915 16907; GX 28936 26984 16644; GX 26975 26997 26974;
GX 26973 26974 26972; GI 26972 27021; GX 27021 27017 28930; GX 28930 28937 16973; GX 16973 28936 16827; GX 4516 26997 27002;
GX 27003 27002 26981; GX 26980 26981 28935; GX 28935 28942 16923; GI 16923 16832; GX 16832 28929 16839; GX 4524 27002 27007;
GX 27007 26982 4576; GI 4576 28934; GX 28934 28941 16966; GX 16915 28934 16842; GI 16966 16762; GX 16762 28919 16760;
GX 4521 27007 27018; GX 27011 27018 28931; GX 28931 28938 16971; GX 16832 28931 16835; GX 27004 27018 28932; GX 28932 28939 16969;
GX 16832 28932 16831; GX 2588 2589 26835; GX 26834 26835 26886; GX 26886 26858 26883; GX 4693 26883 4687; GA 4688 4687 4684;
GX 4684 4686 4683; GA 4685 4683 4682; GX 4694 4682 26827; GX 26859 26827 26823; GX 2584 26823 26826; GX 2586 26823 26822;
GX 4682 26865 26880; GX 26878 26880 4681; GA 4681 4700 4660; GA 4681 4707 4651; GX 4922 26668 4918; GA 4918 4914 4907;
GX 4834 4822 26691; GX 26723 26691 26687; GX 2600 26687 26690; GX 2602 26687 26686; GX 26685 26686 4806; GA 4806 4839 4798;
GX 4798 4801 26731; GA 4806 4854 4789; GX 26731 26733 26745; GX 4800 26745 26711; GX 26689 26690 4809; GA 4809 4852 4790;
GX 4789 4790 26720; GA 4809 4841 4799; GX 4788 4790 26704; GX 4799 4805 26737; GX 4798 26737 26710; GX 26737 26733 26705;
GX 26704 26705 26748; GX 26748 26738 4855; GX 4792 26720 26740; GX 26740 26711 4857; GI 4857 29013; GX 29013 29020 16933;
GX 16985 16933 28884; GX 16937 16933 16897; GX 16897 16898 28892; GI 29013 16870; GX 16870 29006 16885; GX 16884 16885 28901;
GX 16934 16933 16866; GX 28901 1045 2445; GX 28892 1038 2454; GX 4793 26740 26713].
(** aes128_with_ks.txt:23004-23253 *)
Definition aes_enc_file_g92 : list gate := [
GI 4855 29017; GX 29017 29024 16925; GI 16925 16906; GX 16906 29023 16904; GX 16904 16905 28888; GX 16930 16925 16891;
GX 29003 16891 28896; GX 29017 16879 16878; GX 16877 16878 28905; GX 16926 16925 16858; GX 28888 1026 2458; GX 28905 1041 2441;
GX 28896 1034 2450; GX 4799 4802 26708; GX 4795 26720 26725; GX 26703 26725 26702; GX 26701 26702 26700; GI 26700 26749;
GX 26749 26745 29014; GX 29014 29021 16931; GX 16936 16931 16896; GX 29000 16896 28893; GX 29014 16866 28909; GX 16932 16931 16864;
GX 16931 28999 16709; GX 16709 16710 28885; GX 29014 29007 16699; GX 28885 1029 2461; GX 28893 1037 2453; GX 4796 26725 26730;
GX 26731 26730 26709; GX 26708 26709 29019; GX 29012 29019 16908; GX 29019 29026 16917; GX 16908 29026 16900; GX 16900 16901 28890;
GX 29019 16888 28898; GX 16937 16908 16887; GX 27052 16887 28899; GX 16937 16917 16871; GX 16917 16870 16869; GX 16908 29023 16704;
GI 16704 16702; GX 16908 29022 16698; GX 16698 16699 16982; GX 16982 16932 28902; GX 16908 29020 16692; GX 28890 1024 2456;
GX 2458 2456 27940; GX 28899 1047 2447; GX 28898 1032 2448; GX 2450 2448 28008; GX 2448 2453 3521; GX 28902 1044 2444;
GX 28909 1053 2437; GX 2448 2454 3523; GX 2447 2441 28084; GX 2444 2445 28059; GX 2456 2461 3591; GX 2454 2453 28028;
GX 28884 1030 2462; GX 2456 2462 3593; GX 2462 2461 27960; GX 4804 26730 26735; GX 26735 26710 4856; GI 4856 29018;
GX 29018 29025 16924; GX 16924 29024 16902; GX 16902 16903 28889; GX 16928 16924 16889; GX 29004 16889 28897; GX 16909 29018 16875;
GX 16875 16876 28906; GX 29018 16858 28913; GX 16924 16908 16857; GX 29005 16857 28914; GX 28889 1025 2457; GX 28906 1040 2440;
GX 28897 1033 2449; GX 28913 1049 2433; GX 4801 26735 26746; GX 26732 26746 29016; GX 29016 29023 16927; GX 16981 16927 28887;
GX 16932 16927 16892; GX 16892 16893 28895; GI 29016 16863; GX 16863 29009 16883; GX 16882 16883 16881; GI 16881 28904;
GX 16917 16863 16862; GX 16928 16927 16859; GX 29017 16859 28912; GX 28904 1042 2442; GX 28912 1050 2434; GX 28914 1048 2432;
GX 2434 2432 28144; GX 2432 2437 3381; GX 2442 2440 28076; GX 28895 1035 2451; GX 2453 2451 3524; GX 28008 3524 3509;
GA 3524 3509 3500; GX 2451 2449 28010; GX 28010 28008 27976; GX 2451 2448 3522; GX 3522 28028 3518; GX 28010 2450 27975;
GX 28076 28084 3447; GX 26739 26746 29015; GX 29015 29022 16929; GX 16983 16929 28886; GX 16934 16929 16894; GX 16894 16895 28894;
GX 16917 29015 16865; GX 16864 16865 28910; GX 16930 16929 16861; GX 16861 16862 16860; GI 16860 28911; GX 28910 1052 2436;
GX 29015 16696 16703; GX 16702 16703 16980; GX 16980 16930 28903; GX 28903 1043 2443; GX 2436 2437 28127; GX 28894 1036 2452;
GX 2443 2440 3452; GX 2445 2443 3454; GX 28911 1051 2435; GX 2435 2433 28146; GX 28146 2434 28111; GX 2435 2432 3382;
GX 28146 28144 28112; GX 2437 2435 3384; GX 28144 3384 3369; GA 3384 3369 3360; GX 2452 2453 27991; GX 28886 1028 2460;
GX 2462 2460 27939; GX 2461 27939 27941; GX 2457 27941 3581; GX 2458 27941 3578; GX 2460 2461 27923; GX 28887 1027 2459;
GX 2461 2459 3594; GX 27940 3594 3579; GA 3594 3579 3570; GX 2459 2456 3592; GX 27939 3592 3584; GA 3592 3581 3571;
GX 3571 27941 27943; GX 3592 27960 3588; GX 3570 3571 27922; GX 27922 27923 27974; GA 3588 3584 3577; GX 2442 28084 3450;
GA 3593 3578 3574; GX 3574 27940 27946; GX 2443 2441 28078; GX 28078 2442 28043; GX 2447 28043 3449; GA 3449 2447 3435;
GX 28078 28076 28044; GX 27974 27946 27971; GX 2459 2457 27942; GX 3577 27942 27947; GX 27942 2458 27907; GX 27947 27943 27953;
GX 2454 2452 28007; GX 28007 27976 3512; GX 2453 28007 28009; GX 2449 28009 3511; GA 3522 3511 3501; GX 3500 3501 27990;
GX 2450 28009 3508; GA 3523 3508 3504; GX 3504 28008 28014; GX 3501 28009 28011; GA 3521 3512 3499; GX 27990 27991 28042;
GX 28042 28014 28039; GX 28007 3522 3514; GA 3518 3514 3507; GX 3507 28010 28015; GX 28015 28011 28021; GX 27942 27940 27908;
GX 27939 27908 3582; GA 3591 3582 3569; GX 2440 2445 3451; GX 28076 3454 3439; GA 3454 3439 3430; GA 5440 5481 5418;
GX 5418 5420 26092; GX 26092 26093 26136; GX 26136 26126 5485; GI 5485 28982; GI 28982 16732; GX 28989 16732 16731;
GI 5487 28978; GI 28978 16675; GX 28985 16675 16737; GX 26816 26806 4785; GI 4785 28996; GX 28989 28996 16939;
GI 16939 16765; GX 16765 28995 16763; GX 16938 28996 16757; GA 4922 4911 4901; GX 4901 26649 26651; GX 4900 4901 26630;
GX 26630 26631 26682; GX 26682 26654 26679; GX 4684 26878 26832; GX 26865 26832 4679; GA 4679 4680 4678; GX 4678 4695 26830;
GX 4678 26877 26831; GX 4678 4686 4677; GX 4684 4678 4676; GA 4677 2591 4663; GA 4677 4709 4654; GA 4686 4676 4675;
GX 4675 4693 26862; GX 2590 26862 26870; GX 26870 26831 4674; GA 4674 4705 4655; GX 4651 4663 26874; GX 4654 26874 26837;
GX 26862 26883 4667; GA 4667 4708 4656; GA 4667 4704 4665; GX 26830 4692 26825; GX 26825 26826 4669; GA 4669 4712 4650;
GA 4669 4701 4659; GX 4659 4665 26873; GX 4660 4663 26875; GA 4674 4703 4664; GX 4675 4683 4673; GA 4681 4673 4672;
GX 4672 26880 26824; GX 4672 4685 4671; GA 4671 4706 4652; GX 26879 26824 4668; GA 4668 4713 4653; GA 4668 4698 4662;
GX 4659 4662 26844; GX 4662 4665 26868; GI 26868 26839; GX 4672 4696 26829].
(** aes128_with_ks.txt:23254-23503 *)
Definition aes_enc_file_g93 : list gate := [
GX 26870 26829 26821; GX 26821 26822 4666; GX 26852 26821 26828; GX 26825 26828 4670; GA 4670 4702 4657; GA 4666 4699 4658;
GX 4658 26873 26846; GX 4653 4657 26869; GX 26873 26869 26841; GA 4666 4714 4649; GX 4649 4650 26856; GX 4652 26856 26876;
GX 4655 26856 26861; GX 4656 26861 26866; GX 26839 26861 26838; GX 26837 26838 26836; GI 26836 26885; GA 4670 4711 4648;
GX 4648 4650 26840; GX 26840 26841 26884; GX 26884 26874 4715; GI 4715 28975; GX 28975 28982 16942; GX 28983 28975 16758;
GX 16757 16758 28857; GX 16942 16938 16743; GX 16942 28996 16734; GX 16734 16735 28872; GX 16942 16941 16714; GX 28989 16714 28880;
GX 28880 1082 2466; GX 28872 1074 2474; GX 28857 1057 2489; GA 4671 4710 4661; GX 4658 4661 26867; GX 26867 26866 26845;
GX 26867 26869 26881; GX 4660 26881 26847; GX 26876 26847 4717; GX 26885 26881 28972; GX 28972 28979 16948; GI 16948 16738;
GX 16738 16943 16748; GX 16738 28993 16736; GX 16736 16737 28869; GX 16948 16947 16722; GX 28986 16722 28877; GX 16681 28972 16680;
GX 28877 1085 2469; GX 28869 1077 2477; GI 4717 28971; GX 28971 28978 16950; GX 16990 16950 28868; GX 16684 28971 16768;
GX 16767 16768 16766; GI 16766 28853; GX 16950 16945 16750; GX 28972 16750 28861; GI 16950 16726; GX 16726 16949 16724;
GX 16724 16725 28876; GX 28868 1078 2478; GX 28876 1086 2470; GX 28861 1069 2485; GX 28853 1061 2493; GX 2478 2477 27824;
GX 26844 26845 28977; GX 28977 28998 16911; GX 28977 28984 16918; GX 16949 16911 16769; GX 26100 16769 28851; GX 16949 16918 16754;
GI 16918 16747; GX 16747 28971 16752; GI 16911 16676; GX 16911 28990 16728; GX 16728 16729 28874; GX 28977 16712 28882;
GX 16911 28994 16686; GX 16676 28993 16679; GX 16679 16680 16989; GX 16989 16943 28854; GX 16676 26780 16673; GX 28882 1080 2464;
GX 2464 2469 3661; GX 28874 1072 2472; GX 2472 2478 3733; GX 28854 1060 2492; GX 2464 2470 3663; GX 2466 2464 27872;
GX 28851 1063 2495; GX 2495 2489 27676; GX 2492 2493 27651; GX 2472 2477 3731; GX 2474 2472 27804; GX 4653 26876 26849;
GX 2470 2469 27892; GX 26875 26839 26850; GX 26849 26850 26848; GX 26848 26100 16951; GX 26848 16754 28859; GI 16951 16753;
GX 16753 16947 16751; GX 16751 16752 28860; GX 16951 16910 16739; GX 26780 16739 28867; GX 16951 16919 16727; GX 26440 16727 28875;
GX 16675 26848 16674; GX 16673 16674 16991; GX 16991 16947 28852; GX 28867 1079 2479; GX 28859 1071 2487; GX 28875 1087 2471;
GX 28860 1070 2486; GX 2486 2485 27756; GX 28852 1062 2494; GX 2494 2492 27667; GX 2493 27667 27669; GX 2494 2493 27688;
GX 27676 27669 3860; GX 2489 27669 3861; GX 4664 26866 26871; GX 26871 26846 4716; GI 4716 28976; GX 28976 28983 16940;
GX 28997 28976 16756; GX 16755 16756 28858; GX 28976 16743 28865; GI 16940 16733; GX 16733 16676 16742; GX 28991 16742 28866;
GX 16733 28997 16730; GX 16730 16731 28873; GX 16940 16939 16713; GX 28990 16713 28881; GX 28873 1073 2473; GX 28858 1056 2488;
GX 28881 1081 2465; GX 2488 2494 3873; GX 28865 1065 2481; GX 2487 2481 27744; GX 2479 2473 27812; GX 2474 27812 3730;
GX 27804 27812 3727; GX 27824 3727 3725; GX 28866 1064 2480; GX 2480 2486 3803; GX 2480 2485 3801; GX 4661 26871 26882;
GX 26868 26882 28974; GX 28974 28981 16944; GX 16986 16944 28871; GX 16732 28974 16764; GX 16763 16764 28856; GX 16747 28974 16746;
GX 16944 16939 16744; GX 28975 16744 28864; GX 16944 16943 16716; GX 16716 16717 16715; GI 16715 28879; GX 28856 1058 2490;
GX 2490 27669 3858; GX 28871 1075 2475; GX 2490 27676 3870; GX 2475 2473 27806; GX 27806 27804 27772; GX 27806 2474 27771;
GX 2479 27771 3729; GA 3729 2479 3715; GX 2477 2475 3734; GX 28879 1083 2467; GX 2469 2467 3664; GX 2467 2464 3662;
GX 3662 27892 3658; GX 27804 3734 3719; GA 3873 3858 3854; GA 3734 3719 3710; GX 28864 1066 2482; GX 2482 2480 27736;
GX 27872 3664 3649; GA 3664 3649 3640; GX 2482 27744 3800; GX 2486 3800 3796; GX 2467 2465 27874; GX 27874 2466 27839;
GX 27874 27872 27840; GX 2494 3870 3866; GA 3866 3870 3853; GA 3796 3800 3783; GX 2471 2465 27880; GX 2466 27880 3660;
GX 27872 27880 3657; GX 2470 3660 3656; GX 2478 3730 3726; GA 3726 3730 3713; GX 27736 27744 3797; GX 27756 3797 3795;
GX 26875 26882 28973; GX 28973 28980 16946; GX 16988 16946 28870; GX 16747 28973 16749; GX 16748 16749 28862; GI 16946 16721;
GX 16721 16941 16745; GX 16745 16746 28863; GX 16721 16945 16719; GX 16719 16720 28878; GX 28981 28973 16687; GX 16686 16687 16987;
GX 16987 16941 28855; GX 28878 1084 2468; GX 2470 2468 27871; GX 28863 1067 2483; GX 2483 2481 27738; GX 2483 2480 3802;
GX 3802 27756 3798; GX 28870 1076 2476; GX 2476 2477 27787; GX 27871 3662 3654; GX 2471 3654 3653; GX 28862 1068 2484;
GX 2478 2476 27803; GX 27803 27772 3722; GX 2485 2483 3804; GX 27736 3804 3789; GA 3804 3789 3780; GX 28855 1059 2491;
GX 2491 2489 27670; GX 2491 2488 3872; GX 3872 27688 3868; GX 2493 2491 3874; GX 27667 3872 3864; GX 2495 3864 3863;
GA 3872 3861 3851; GX 2486 2484 27735; GX 2485 27735 27737; GX 2481 27737 3791; GA 3731 3722 3709; GX 27670 2490 27635;
GX 2495 27635 3869; GX 2484 2485 27719; GX 2482 27737 3788; GA 3803 3788 3784; GX 3784 27736 27742; GX 2468 2469 27855;
GA 3658 3654 3647; GX 3647 27874 27879; GA 3868 3864 3857; GX 3857 27670 27675].
(** aes128_with_ks.txt:23504-23753 *)
Definition aes_enc_file_g94 : list gate := [
GX 27735 3802 3794; GA 3798 3794 3787; GX 2487 3794 3793; GA 3795 3793 3786; GX 3787 27738 27743; GA 3869 2495 3855;
GA 3802 3791 3781; GX 3781 27737 27739; GX 27743 27739 27749; GX 3780 3781 27718; GX 27744 27737 3790; GA 3797 3790 3782;
GX 27738 2482 27703; GX 2487 27703 3799; GX 27738 27736 27704; GX 3780 3786 27748; GX 2480 27748 27763; GX 27763 27749 3778;
GA 3656 3660 3643; GX 27718 27719 27770; GX 27770 27742 27767; GX 3783 27767 3777; GA 3778 3777 3774; GX 3851 27669 27671;
GX 27675 27671 27681; GX 2488 2493 3871; GX 27735 27704 3792; GA 3801 3792 3779; GX 3779 3782 27741; GX 27742 27741 27727;
GX 27739 27727 3776; GX 3774 3776 3773; GX 3780 27741 27761; GX 3783 27761 27717; GX 2486 27717 3770; GA 3799 2487 3785;
GX 3779 3785 27747; GX 2482 27747 27762; GX 3774 27762 27716; GX 27748 27747 27726; GX 27736 27726 3775; GA 3775 3773 3772;
GX 3784 3772 27711; GX 3772 27749 27764; GX 27762 27764 3771; GA 3771 3790 3750; GA 3771 3797 3741; GX 27743 27711 27707;
GX 2482 27707 27706; GX 2480 27707 27710; GX 27749 27716 3769; GA 3769 3770 3768; GX 3768 27761 27715; GX 3774 3768 3766;
GX 3768 3776 3767; GA 3767 3799 3744; GA 3767 2487 3753; GX 3750 3753 27759; GX 3768 3785 27714; GX 27714 3782 27709;
GA 3776 3766 3765; GX 3765 3773 3763; GA 3771 3763 3762; GX 3762 3775 3761; GA 3761 3800 3751; GX 3762 27764 27708;
GX 27763 27708 3758; GA 3761 3796 3742; GX 3762 3786 27713; GA 3758 3788 3752; GX 3765 3783 27746; GX 2486 27746 27754;
GX 27754 27713 27705; GX 27736 27705 27712; GX 27709 27712 3760; GA 3760 3801 3738; GX 27746 27767 3757; GA 3757 3798 3746;
GA 3757 3794 3755; GA 3760 3792 3747; GA 3758 3803 3743; GX 3743 3747 27753; GX 27754 27715 3764; GA 3764 3793 3754;
GA 3764 3795 3745; GX 3741 3753 27758; GX 3744 27758 27721; GX 3752 3755 27752; GI 27752 27723; GX 27759 27723 27734;
GX 27705 27706 3756; GA 3756 3789 3748; GA 3756 3804 3739; GX 3748 3751 27751; GX 27751 27753 27765; GX 3750 27765 27731;
GX 27709 27710 3759; GA 3759 3791 3749; GX 3749 3752 27728; GX 3749 3755 27757; GX 27757 27753 27725; GX 3748 27757 27730;
GA 3759 3802 3740; GX 3739 3740 27740; GX 3742 27740 27760; GX 3745 27740 27745; GX 3746 27745 27750; GX 3754 27750 27755;
GX 27760 27731 3807; GX 3738 3740 27724; GX 3743 27760 27733; GX 27723 27745 27722; GX 27721 27722 27720; GI 27720 27769;
GX 27769 27765 28683; GX 3751 27755 27766; GX 27752 27766 28685; GX 27759 27766 28684; GI 28684 17010; GX 27733 27734 27732;
GX 27751 27750 27729; GX 27728 27729 28688; GX 27724 27725 27768; GX 27768 27758 3805; GI 3805 28686; GI 28686 17142;
GX 27755 27730 3806; GI 3806 28687; GX 28688 28687 17206; GX 27871 27840 3652; GA 3661 3652 3639; GX 3709 3715 27815;
GX 2474 27815 27830; GX 2477 27803 27805; GX 2473 27805 3721; GX 27812 27805 3720; GA 3727 3720 3712; GX 2474 27805 3718;
GA 3733 3718 3714; GX 3714 27804 27810; GX 2471 27839 3659; GA 3659 2471 3645; GX 3639 3645 27883; GX 2466 27883 27898;
GX 27892 3657 3655; GA 3655 3653 3646; GX 3640 3646 27884; GX 2464 27884 27899; GX 27884 27883 27862; GX 27872 27862 3635;
GX 3709 3712 27809; GX 3710 27809 27829; GX 27810 27809 27795; GX 3713 27829 27785; GX 2478 27785 3700; GX 2475 2472 3732;
GA 3732 3721 3711; GX 3710 3711 27786; GX 27786 27787 27838; GX 3711 27805 27807; GX 27803 3732 3724; GX 27838 27810 27835;
GX 3713 27835 3707; GX 3732 27824 3728; GA 3728 3724 3717; GX 3717 27806 27811; GX 2479 3724 3723; GA 3725 3723 3716;
GX 27807 27795 3706; GX 3710 3716 27816; GX 2472 27816 27831; GX 27816 27815 27794; GX 27804 27794 3705; GX 27811 27807 27817;
GX 27831 27817 3708; GA 3708 3707 3704; GX 3704 27830 27784; GX 27817 27784 3699; GX 3704 3706 3703; GA 3705 3703 3702;
GX 3702 27817 27832; GX 27830 27832 3701; GA 3701 3727 3671; GA 3701 3720 3680; GX 3714 3702 27779; GX 27811 27779 27775;
GX 2474 27775 27774; GX 2472 27775 27778; GA 3699 3700 3698; GX 3698 27829 27783; GX 3704 3698 3696; GA 3706 3696 3695;
GX 3695 3713 27814; GX 27814 27835 3687; GA 3687 3724 3685; GA 3687 3728 3676; GX 2478 27814 27822; GX 27822 27783 3694;
GA 3694 3725 3675; GX 3695 3703 3693; GA 3701 3693 3692; GX 3692 27832 27776; GX 27831 27776 3688; GA 3688 3733 3673;
GX 3692 3705 3691; GA 3688 3718 3682; GX 3682 3685 27820; GI 27820 27791; GA 3691 3730 3681; GA 3691 3726 3672;
GX 3698 3715 27782; GX 27782 3712 27777; GX 27777 27778 3689; GA 3689 3721 3679; GX 3679 3685 27825; GX 3679 3682 27796;
GA 3689 3732 3670; GA 3694 3723 3684; GX 3692 3716 27781; GX 27822 27781 27773; GX 27773 27774 3686; GA 3686 3719 3678;
GA 3686 3734 3669; GX 27804 27773 27780; GX 3678 3681 27819; GX 3678 27825 27798; GX 27777 27780 3690; GA 3690 3722 3677;
GA 3690 3731 3668; GX 3673 3677 27821; GX 27819 27821 27833; GX 3680 27833 27799; GX 3668 3670 27792; GX 3698 3706 3697;
GA 3697 3729 3674; GA 3697 2479 3683; GX 3680 3683 27827; GX 27827 27791 27802; GX 27825 27821 27793; GX 27792 27793 27836;
GX 3671 3683 27826; GX 27836 27826 3735; GI 3735 28777; GX 3674 27826 27789; GX 3669 3670 27808; GX 3675 27808 27813;
GX 3672 27808 27828; GX 3676 27813 27818; GX 27791 27813 27790; GX 27789 27790 27788].
(** aes128_with_ks.txt:23754-24003 *)
Definition aes_enc_file_g95 : list gate := [
GI 27788 27837; GX 27837 27833 28774; GX 3673 27828 27801; GX 27801 27802 27800; GX 27828 27799 3737; GI 3737 28773;
GI 28773 17233; GX 27819 27818 27797; GX 27796 27797 28779; GX 3684 27818 27823; GX 27823 27798 3736; GX 3681 27823 27834;
GX 27827 27834 28775; GX 27820 27834 28776; GI 28776 17226; GI 3736 28778; GX 2469 27871 27873; GX 2466 27873 3648;
GA 3663 3648 3644; GX 3644 27872 27878; GX 27880 27873 3650; GA 3657 3650 3642; GX 3639 3642 27877; GX 27878 27877 27863;
GX 2465 27873 3651; GA 3662 3651 3641; GX 3641 27873 27875; GX 27875 27863 3636; GX 27879 27875 27885; GX 27899 27885 3638;
GX 3640 27877 27897; GX 3643 27897 27853; GX 2470 27853 3630; GX 3640 3641 27854; GX 27854 27855 27906; GX 27906 27878 27903;
GX 3643 27903 3637; GA 3638 3637 3634; GX 3634 3636 3633; GX 3634 27898 27852; GX 27885 27852 3629; GA 3635 3633 3632;
GX 3632 27885 27900; GA 3629 3630 3628; GX 3628 3645 27850; GX 27850 3642 27845; GX 3634 3628 3626; GX 3628 27897 27851;
GX 27898 27900 3631; GA 3631 3650 3610; GA 3636 3626 3625; GX 3625 3643 27882; GX 27882 27903 3617; GX 2470 27882 27890;
GX 3625 3633 3623; GA 3631 3623 3622; GX 3622 3635 3621; GA 3621 3660 3611; GA 3621 3656 3602; GX 3622 27900 27844;
GX 27899 27844 3618; GA 3618 3663 3603; GA 3618 3648 3612; GX 3628 3636 3627; GA 3627 2471 3613; GX 3610 3613 27895;
GA 3627 3659 3604; GX 27890 27851 3624; GX 3644 3632 27847; GX 3622 3646 27849; GX 27890 27849 27841; GX 27872 27841 27848;
GX 27845 27848 3620; GA 3620 3661 3598; GX 27879 27847 27843; GX 2464 27843 27846; GX 2466 27843 27842; GX 27845 27846 3619;
GA 3619 3662 3600; GX 3598 3600 27860; GA 3619 3651 3609; GX 3609 3612 27864; GA 3624 3653 3614; GX 27841 27842 3616;
GA 3616 3664 3599; GX 3599 3600 27876; GA 3631 3657 3601; GX 3601 3613 27894; GX 3604 27894 27857; GA 3617 3654 3615;
GX 3612 3615 27888; GI 27888 27859; GX 27895 27859 27870; GA 3616 3649 3608; GX 3608 3611 27887; GA 3620 3652 3607;
GX 3603 3607 27889; GX 27887 27889 27901; GX 3610 27901 27867; GA 3617 3658 3606; GA 3624 3655 3605; GX 3605 27876 27881;
GX 27859 27881 27858; GX 27857 27858 27856; GI 27856 27905; GX 27905 27901 28753; GX 3606 27881 27886; GX 27887 27886 27865;
GX 3614 27886 27891; GX 3611 27891 27902; GX 27864 27865 28758; GX 27888 27902 28755; GX 27895 27902 28754; GX 3609 3615 27893;
GX 27893 27889 27861; GX 27860 27861 27904; GX 27904 27894 3665; GX 3608 27893 27866; GX 27891 27866 3666; GI 3666 28757;
GI 3665 28756; GI 3807 28682; GX 2490 2488 27668; GX 3854 27668 27674; GX 27668 3874 3859; GA 3874 3859 3850;
GX 3850 3851 27650; GX 27670 27668 27636; GX 27667 27636 3862; GA 3871 3862 3849; GX 27650 27651 27702; GX 27702 27674 27699;
GX 3853 27699 3847; GX 3849 3855 27679; GX 2490 27679 27694; GX 3602 27876 27896; GX 3603 27896 27869; GX 27896 27867 3667;
GI 3667 28752; GX 27869 27870 27868; GX 27668 27676 3867; GX 27688 3867 3865; GA 3867 3860 3852; GX 3849 3852 27673;
GX 27674 27673 27659; GX 27671 27659 3846; GA 3865 3863 3856; GX 3850 3856 27680; GX 27680 27679 27658; GX 27668 27658 3845;
GX 2488 27680 27695; GX 27695 27681 3848; GA 3848 3847 3844; GX 3844 27694 27648; GX 27681 27648 3839; GX 3850 27673 27693;
GX 3853 27693 27649; GX 2494 27649 3840; GA 3839 3840 3838; GX 3838 3855 27646; GX 3838 3846 3837; GA 3837 3869 3814;
GX 27646 3852 27641; GX 3838 27693 27647; GX 3844 3838 3836; GA 3846 3836 3835; GX 3835 3853 27678; GX 27678 27699 3827;
GA 3827 3868 3816; GX 2494 27678 27686; GX 27686 27647 3834; GA 3834 3863 3824; GA 3827 3864 3825; GA 3837 2495 3823;
GX 3844 3846 3843; GA 3845 3843 3842; GX 3835 3843 3833; GX 3842 27681 27696; GX 27694 27696 3841; GA 3841 3860 3820;
GA 3841 3833 3832; GX 3832 3845 3831; GA 3831 3870 3821; GA 3841 3867 3811; GA 3831 3866 3812; GX 3832 3856 27645;
GX 3832 27696 27640; GX 27695 27640 3828; GA 3828 3858 3822; GX 3822 3825 27684; GI 27684 27655; GA 3828 3873 3813;
GX 3820 3823 27691; GX 27691 27655 27666; GX 27686 27645 27637; GX 27668 27637 27644; GX 27641 27644 3830; GA 3830 3871 3808;
GX 3854 3842 27643; GX 3811 3823 27690; GX 3814 27690 27653; GA 3830 3862 3817; GX 3813 3817 27685; GX 27675 27643 27639;
GX 2488 27639 27642; GX 27641 27642 3829; GA 3829 3861 3819; GA 3829 3872 3810; GX 3808 3810 27656; GX 3819 3822 27660;
GX 3819 3825 27689; GX 27689 27685 27657; GX 27656 27657 27700; GX 27700 27690 3875; GI 3875 28707; GX 2490 27639 27638;
GX 27637 27638 3826; GA 3826 3859 3818; GX 3818 3821 27683; GX 3818 27689 27662; GA 3826 3874 3809; GX 3809 3810 27672;
GX 3812 27672 27692; GX 3813 27692 27665; GX 27665 27666 27664; GX 27683 27685 27697; GX 3820 27697 27663; GX 27692 27663 3877;
GI 3877 28703; GA 3834 3865 3815; GX 3815 27672 27677; GX 27655 27677 27654; GX 27653 27654 27652; GI 27652 27701;
GX 27701 27697 28704; GX 3816 27677 27682; GX 3824 27682 27687; GX 3821 27687 27698; GX 27684 27698 28706; GX 27683 27682 27661;
GX 27660 27661 28709; GX 27687 27662 3876; GI 3876 28708; GX 27691 27698 28705; GX 4907 26650 26655; GX 26655 26651 26661;
GX 26893 26896 4600; GA 4600 4641 4578; GX 4578 4580 26908; GA 4600 4632 4587].
(** aes128_with_ks.txt:24004-24253 *)
Definition aes_enc_file_g96 : list gate := [
GX 4583 4587 26937; GX 26941 26937 26909; GX 26908 26909 26952; GX 26935 26937 26949; GX 26953 26949 28951; GX 28944 28951 16962;
GI 28951 16667; GX 16667 28943 16823; GX 16822 16823 16821; GI 16821 28821; GI 16962 16799; GX 16799 16957 16807;
GX 16807 16808 28830; GX 16799 28965 16797; GX 16962 16961 16784; GX 28958 16784 28845; GX 28958 16667 16666; GX 16665 16666 16994;
GX 16994 16960 28838; GX 28821 1093 2525; GX 28838 1108 2508; GX 28845 1117 2501; GX 2520 2525 4151; GX 2500 2501 27583;
GX 2525 2523 4154; GX 2496 2501 3941; GX 2501 2499 3944; GX 26952 26942 4645; GX 28830 1100 2516; GX 2518 2516 27463;
GX 27463 4082 4074; GX 4590 26949 26915; GX 26944 26915 4647; GI 4647 28950; GX 28943 28950 16964; GX 16996 16964 28836;
GX 16964 16959 16809; GX 28944 16809 28829; GI 28950 16658; GX 28957 16658 16798; GX 16797 16798 28837; GI 16964 16787;
GX 16787 16963 16785; GX 16785 16786 28844; GX 28844 1118 2502; GX 16658 26576 16657; GX 16656 16657 16997; GX 16997 16961 28820;
GX 28820 1094 2526; GX 28837 1109 2509; GX 2509 2507 4014; GX 2526 2524 27395; GX 27395 4152 4144; GX 2502 2500 27599;
GX 27599 3942 3934; GX 2526 2525 27416; GX 2502 2501 27620; GX 2503 3934 3933; GX 2496 2502 3943; GX 2525 27395 27397;
GX 2521 27397 4141; GA 4152 4141 4131; GX 4131 27397 27399; GX 28836 1110 2510; GX 2510 2508 27531; GX 27531 4012 4004;
GX 2510 2509 27552; GX 2509 27531 27533; GX 2504 2509 4011; GX 3942 27620 3938; GX 2527 4144 4143; GX 2504 2510 4013;
GX 4152 27416 4148; GA 4148 4144 4137; GX 4137 27398 27403; GX 27403 27399 27409; GX 2520 2526 4153; GX 27404 27397 4140;
GX 28829 1101 2517; GX 2518 2517 27484; GX 2512 2517 4081; GX 2516 2517 27447; GX 2517 2515 4084; GX 27464 4084 4069;
GA 4084 4069 4060; GX 2517 27463 27465; GX 2514 27465 4068; GA 4083 4068 4064; GX 4064 27464 27470; GX 2508 2509 27515;
GX 2501 27599 27601; GX 2497 27601 3931; GX 27608 27601 3930; GA 3942 3931 3921; GX 3921 27601 27603; GX 2511 4004 4003;
GX 4012 27552 4008; GA 4008 4004 3997; GA 3938 3934 3927; GX 3927 27602 27607; GX 4082 27484 4078; GA 4078 4074 4067;
GX 2519 4074 4073; GX 2524 2525 27379; GX 27607 27603 27613; GI 4645 28954; GX 28947 28954 16956; GI 28954 16793;
GX 16793 28946 16819; GX 16818 16819 28824; GX 16956 16952 16802; GX 28948 16802 28833; GX 16956 28968 16795; GX 16795 16796 28840;
GX 28961 16793 16792; GX 16791 16792 28841; GX 16956 16955 16772; GX 28961 16772 28848; GX 28833 1097 2513; GX 28841 1105 2505;
GX 2507 2505 27534; GX 2505 27533 4001; GX 3997 27534 27539; GX 2511 2505 27540; GX 27540 27533 4000; GX 2519 2513 27472;
GX 27464 27472 4077; GX 28848 1114 2498; GX 2498 27601 3928; GA 3943 3928 3924; GX 2498 27608 3940; GX 2502 3940 3936;
GA 3936 3940 3923; GX 2514 27472 4080; GX 2518 4080 4076; GX 28840 1106 2506; GX 2506 27533 3998; GX 2506 27540 4010;
GX 2510 4010 4006; GX 27534 2506 27499; GX 2506 2504 27532; GX 27532 4014 3999; GX 27532 27540 4007; GA 4007 4000 3992;
GA 4076 4080 4063; GX 27552 4007 4005; GA 4005 4003 3996; GX 2498 2496 27600; GX 27602 27600 27568; GX 27599 27568 3932;
GX 27600 3944 3929; GA 3944 3929 3920; GX 27600 27608 3937; GX 27620 3937 3935; GA 3935 3933 3926; GA 3937 3930 3922;
GX 3920 3921 27582; GX 27582 27583 27634; GA 4013 3998 3994; GX 3924 27600 27606; GX 27634 27606 27631; GX 27534 27532 27500;
GX 28824 1090 2522; GX 2522 27404 4150; GX 2522 27397 4138; GX 2522 2520 27396; GX 27396 27404 4147; GX 2526 4150 4146;
GX 27416 4147 4145; GA 4145 4143 4136; GX 27398 2522 27363; GX 2527 27363 4149; GX 27396 4154 4139; GA 4153 4138 4134;
GX 4134 27396 27402; GX 3923 27631 3917; GA 3941 3932 3919; GX 3919 3922 27605; GX 3920 27605 27625; GX 3923 27625 27581;
GX 2502 27581 3910; GX 27606 27605 27591; GX 27603 27591 3916; GX 2515 2513 27466; GX 4067 27466 27471; GX 27466 2514 27431;
GX 27466 27464 27432; GX 27463 27432 4072; GA 4081 4072 4059; GX 2519 27431 4079; GA 4079 2519 4065; GX 27531 27500 4002;
GX 2511 27499 4009; GA 4009 2511 3995; GA 4146 4150 4133; GA 4147 4140 4132; GA 4012 4001 3991; GX 3991 27533 27535;
GX 27539 27535 27545; GA 4014 3999 3990; GX 3990 3991 27514; GX 3990 3996 27544; GX 2504 27544 27559; GX 27559 27545 3988;
GA 4011 4002 3989; GX 3989 3995 27543; GX 2506 27543 27558; GX 27544 27543 27522; GX 27532 27522 3985; GX 3920 3926 27612;
GX 2496 27612 27627; GX 27627 27613 3918; GA 3918 3917 3914; GX 3914 3916 3913; GX 4059 4065 27475; GX 2514 27475 27490;
GA 4006 4010 3993; GX 2513 27465 4071; GA 4082 4071 4061; GX 4060 4061 27446; GX 27446 27447 27498; GX 27498 27470 27495;
GX 4063 27495 4057; GX 27514 27515 27566; GX 4061 27465 27467; GX 27471 27467 27477; GX 27602 2498 27567; GX 2503 27567 3939;
GA 3939 2503 3925; GX 3919 3925 27611; GX 27612 27611 27590; GX 27600 27590 3915; GA 3915 3913 3912; GX 3924 3912 27575;
GX 27607 27575 27571; GX 3912 27613 27628; GX 2496 27571 27574; GX 2498 27611 27626; GX 3914 27626 27580; GX 27626 27628 3911;
GA 3911 3937 3881; GA 3911 3930 3890; GX 2498 27571 27570; GX 27613 27580 3909; GA 3909 3910 3908; GX 3908 27625 27579;
GX 3914 3908 3906; GA 3916 3906 3905; GX 3908 3916 3907; GA 3907 2503 3893].
(** aes128_with_ks.txt:24254-24503 *)
Definition aes_enc_file_g97 : list gate := [
GA 3907 3939 3884; GX 3890 3893 27623; GX 3905 3923 27610; GX 2502 27610 27618; GX 27618 27579 3904; GA 3904 3933 3894;
GX 27610 27631 3897; GX 3881 3893 27622; GX 3884 27622 27585; GX 3908 3925 27578; GX 27578 3922 27573; GX 27573 27574 3899;
GA 3899 3942 3880; GA 3899 3931 3889; GX 3905 3913 3903; GA 3911 3903 3902; GX 3902 27628 27572; GX 3902 3915 3901;
GA 3901 3936 3882; GX 3902 3926 27577; GX 27618 27577 27569; GX 27569 27570 3896; GA 3896 3929 3888; GA 3896 3944 3879;
GX 27600 27569 27576; GX 27573 27576 3900; GA 3900 3941 3878; GA 3900 3932 3887; GX 3878 3880 27588; GX 3879 3880 27604;
GX 3882 27604 27624; GA 3897 3938 3886; GA 3901 3940 3891; GX 3888 3891 27615; GA 3897 3934 3895; GX 3889 3895 27621;
GX 3888 27621 27594; GX 27484 4077 4075; GA 4075 4073 4066; GX 4060 4066 27476; GX 27476 27475 27454; GX 27464 27454 4055;
GX 2512 27476 27491; GX 27491 27477 4058; GA 4058 4057 4054; GX 4054 27490 27444; GX 27477 27444 4049; GX 27472 27465 4070;
GA 4077 4070 4062; GX 4059 4062 27469; GX 27470 27469 27455; GX 27467 27455 4056; GX 4060 27469 27489; GX 4063 27489 27445;
GX 2518 27445 4050; GA 4049 4050 4048; GX 4048 27489 27443; GX 4048 4065 27442; GX 27442 4062 27437; GX 4054 4048 4046;
GA 4056 4046 4045; GX 4045 4063 27474; GX 27474 27495 4037; GX 2518 27474 27482; GX 27482 27443 4044; GA 4044 4075 4025;
GA 4044 4073 4034; GA 4037 4078 4026; GA 4037 4074 4035; GX 4048 4056 4047; GA 4047 2519 4033; GA 4047 4079 4024;
GX 4054 4056 4053; GX 4045 4053 4043; GA 4055 4053 4052; GX 4064 4052 27439; GX 27471 27439 27435; GX 2512 27435 27438;
GX 27437 27438 4039; GX 2514 27435 27434; GA 4039 4071 4029; GX 4029 4035 27485; GA 4039 4082 4020; GX 4052 27477 27492;
GX 27490 27492 4051; GA 4051 4043 4042; GX 4042 4066 27441; GX 27482 27441 27433; GX 27464 27433 27440; GX 27437 27440 4040;
GA 4040 4072 4027; GA 4040 4081 4018; GX 4018 4020 27452; GA 4051 4070 4030; GX 4030 4033 27487; GX 4042 27492 27436;
GA 4051 4077 4021; GX 27433 27434 4036; GA 4036 4084 4019; GX 4019 4020 27468; GX 4025 27468 27473; GX 4026 27473 27478;
GA 4036 4069 4028; GX 4028 27485 27458; GX 4034 27478 27483; GX 27483 27458 4086; GI 4086 28771; GX 27491 27436 4038;
GA 4038 4068 4032; GX 4029 4032 27456; GX 4032 4035 27480; GA 4038 4083 4023; GX 4021 4033 27486; GX 4024 27486 27449;
GX 4023 4027 27481; GX 27485 27481 27453; GX 27452 27453 27496; GX 27496 27486 4085; GI 4085 28770; GI 28770 17242;
GX 28777 17242 17241; GI 27480 27451; GX 27451 27473 27450; GX 27449 27450 27448; GI 27448 27497; GX 27487 27451 27462;
GX 4042 4055 4041; GA 4041 4080 4031; GX 4028 4031 27479; GX 27479 27478 27457; GX 27456 27457 28772; GX 28772 28779 17271;
GX 28772 28771 17239; GA 4041 4076 4022; GX 4022 27468 27488; GX 4023 27488 27461; GX 4031 27483 27494; GX 27480 27494 28769;
GX 17226 28769 17246; GX 27487 27494 28768; GI 28768 17059; GX 28775 17059 17066; GX 27479 27481 27493; GX 27497 27493 28767;
GX 28774 28767 17062; GX 27461 27462 27460; GX 27800 27460 17056; GX 4030 27493 27459; GX 27488 27459 4087; GI 4087 28766;
GX 17233 28766 17248; GA 3904 3935 3885; GX 3885 27604 27609; GX 3886 27609 27614; GX 3894 27614 27619; GX 27615 27614 27593;
GX 3891 27619 27630; GX 27619 27594 3946; GI 3946 28729; GX 28729 28708 17178; GX 27623 27630 28726; GX 3989 3992 27537;
GX 3990 27537 27557; GX 3993 27557 27513; GX 2510 27513 3980; GX 3994 27532 27538; GX 27538 27537 27523; GX 27535 27523 3986;
GX 27566 27538 27563; GX 3993 27563 3987; GA 3988 3987 3984; GX 3984 3986 3983; GA 3985 3983 3982; GX 3982 27545 27560;
GX 3994 3982 27507; GX 27539 27507 27503; GX 2504 27503 27506; GX 2506 27503 27502; GX 3984 27558 27512; GX 27545 27512 3979;
GA 3979 3980 3978; GX 3978 3986 3977; GA 3977 4009 3954; GX 3978 27557 27511; GX 3978 3995 27510; GX 27510 3992 27505;
GX 27505 27506 3969; GA 3969 4012 3950; GA 3969 4001 3959; GA 3977 2511 3963; GX 3984 3978 3976; GA 3986 3976 3975;
GX 3975 3983 3973; GX 3975 3993 27542; GX 27542 27563 3967; GX 2510 27542 27550; GX 27550 27511 3974; GA 3967 4004 3965;
GX 3959 3965 27553; GA 3974 4005 3955; GA 3974 4003 3964; GA 3967 4008 3956; GX 27558 27560 3981; GA 3981 4000 3960;
GX 3960 3963 27555; GA 3981 4007 3951; GX 3951 3963 27554; GA 3981 3973 3972; GX 3972 3996 27509; GX 27550 27509 27501;
GX 27501 27502 3966; GA 3966 4014 3949; GX 3949 3950 27536; GX 3955 27536 27541; GX 3956 27541 27546; GA 3966 3999 3958;
GX 3958 27553 27526; GX 27532 27501 27508; GX 27505 27508 3970; GA 3970 4002 3957; GX 3964 27546 27551; GX 27551 27526 4016;
GI 4016 28750; GX 28750 28757 17301; GX 17301 28756 17120; GA 3970 4011 3948; GX 3972 27560 27504; GX 27559 27504 3968;
GA 3968 3998 3962; GX 3959 3962 27524; GA 3968 4013 3953; GX 3953 3957 27549; GX 27553 27549 27521; GX 3962 3965 27548;
GI 27548 27519; GX 27519 27541 27518; GX 27555 27519 27530; GX 3972 3985 3971; GA 3971 4006 3952; GA 3971 4010 3961;
GX 3961 27551 27562; GX 3958 3961 27547; GX 27547 27549 27561; GX 3952 27536 27556; GX 3953 27556 27529; GX 27529 27530 27528;
GX 27528 27868 17312; GX 27547 27546 27525; GX 27524 27525 28751; GX 28751 28758 17282].
(** aes128_with_ks.txt:24504-24753 *)
Definition aes_enc_file_g98 : list gate := [
GI 17282 17081; GX 27555 27562 28747; GX 28747 28754 17306; GX 17081 28747 17083; GX 3960 27561 27527; GX 27556 27527 4017;
GI 4017 28745; GX 28745 28752 17310; GX 17081 28745 17088; GX 3948 3950 27520; GX 27520 27521 27564; GX 27564 27554 4015;
GI 4015 28749; GX 28749 28756 17302; GI 17302 17128; GX 17128 28755 17126; GX 3954 27554 27517; GX 27517 27518 27516;
GI 27516 27565; GX 27565 27561 28746; GX 28746 28753 17308; GX 17308 28752 17130; GX 27548 27562 28748; GX 28748 28755 17304;
GX 17081 28748 17080; GX 27627 27572 3898; GA 3898 3943 3883; GX 3883 3887 27617; GX 27615 27617 27629; GX 3890 27629 27595;
GX 27621 27617 27589; GX 3883 27624 27597; GX 27624 27595 3947; GI 3947 28724; GX 27588 27589 27632; GX 27632 27622 3945;
GI 3945 28728; GA 3898 3928 3892; GX 3889 3892 27592; GX 3892 3895 27616; GX 27616 27630 28727; GI 27616 27587;
GX 27623 27587 27598; GX 27597 27598 27596; GX 27587 27609 27586; GX 27592 27593 28730; GX 28709 28730 17276; GI 17276 17022;
GX 17276 28726 17032; GX 17022 27596 17019; GX 27585 27586 27584; GI 27584 27633; GX 27633 27629 28725; GX 17022 28725 17025;
GA 4154 4139 4130; GX 4130 4136 27408; GX 2520 27408 27423; GX 27423 27409 4128; GX 4130 4131 27378; GX 27378 27379 27430;
GX 27430 27402 27427; GX 4133 27427 4127; GA 4128 4127 4124; GA 4149 2527 4135; GX 27398 27396 27364; GX 27395 27364 4142;
GA 4151 4142 4129; GX 4129 4135 27407; GX 2522 27407 27422; GX 4129 4132 27401; GX 4130 27401 27421; GX 4133 27421 27377;
GX 4124 27422 27376; GX 27409 27376 4119; GX 27402 27401 27387; GX 2526 27377 4120; GA 4119 4120 4118; GX 4118 27421 27375;
GX 4124 4118 4116; GX 27408 27407 27386; GX 27396 27386 4125; GX 4118 4135 27374; GX 27374 4132 27369; GX 27399 27387 4126;
GX 4118 4126 4117; GA 4126 4116 4115; GX 4115 4133 27406; GX 27406 27427 4107; GX 2526 27406 27414; GX 27414 27375 4114;
GA 4114 4145 4095; GA 4107 4148 4096; GA 4117 4149 4094; GA 4114 4143 4104; GA 4117 2527 4103; GA 4107 4144 4105;
GX 4124 4126 4123; GX 4115 4123 4113; GA 4125 4123 4122; GX 4134 4122 27371; GX 27403 27371 27367; GX 2522 27367 27366;
GX 2520 27367 27370; GX 4122 27409 27424; GX 27422 27424 4121; GA 4121 4147 4091; GX 4091 4103 27418; GX 4094 27418 27381;
GA 4121 4113 4112; GX 4112 27424 27368; GX 4112 4125 4111; GA 4111 4146 4092; GX 4112 4136 27373; GX 27414 27373 27365;
GX 27365 27366 4106; GA 4106 4154 4089; GA 4106 4139 4098; GX 27423 27368 4108; GA 4108 4153 4093; GA 4108 4138 4102;
GX 4102 4105 27412; GI 27412 27383; GX 27396 27365 27372; GX 27369 27372 4110; GA 4110 4151 4088; GA 4110 4142 4097;
GX 4093 4097 27413; GA 4111 4150 4101; GX 4098 4101 27411; GX 27411 27413 27425; GA 4121 4140 4100; GX 4100 27425 27391;
GX 4100 4103 27419; GX 27419 27383 27394; GX 27369 27370 4109; GA 4109 4141 4099; GX 4099 4102 27388; GX 4099 4105 27417;
GX 27417 27413 27385; GX 4098 27417 27390; GA 4109 4152 4090; GX 4088 4090 27384; GX 27384 27385 27428; GX 4089 4090 27400;
GX 4095 27400 27405; GX 27383 27405 27382; GX 27428 27418 4155; GX 4096 27405 27410; GX 4104 27410 27415; GX 4101 27415 27426;
GX 27419 27426 28677; GX 28677 28684 17337; GI 17337 17199; GX 27411 27410 27389; GX 27388 27389 28681; GX 28681 28688 17285;
GI 17285 17071; GX 17071 28677 17237; GX 27381 27382 27380; GI 27380 27429; GX 27429 27425 28676; GX 28676 28683 17339;
GX 17339 28682 17212; GX 27412 27426 28678; GX 28678 28685 17335; GX 17071 28678 17219; GI 17335 17196; GX 4092 27400 27420;
GX 4093 27420 27393; GX 27393 27394 27392; GX 27392 27732 17342; GX 27420 27391 4157; GI 4157 28675; GX 28675 28682 17341;
GI 17341 17203; GX 28675 28683 17191; GX 17071 28675 17070; GX 27415 27390 4156; GI 4156 28680; GX 28680 28687 17331;
GI 17331 17209; GI 4155 28679; GX 28679 28686 17333; GX 2615 2609 26656; GX 26648 26656 4917; GX 26668 4917 4915;
GX 26656 26649 4910; GA 4917 4910 4902; GX 4899 4902 26653; GX 4900 26653 26673; GX 26654 26653 26639; GX 26651 26639 4896;
GA 4915 4913 4906; GX 4900 4906 26660; GX 26660 26659 26638; GX 2608 26660 26675; GX 26648 26638 4895; GX 26675 26661 4898;
GX 2610 26656 4920; GX 2614 4920 4916; GA 4916 4920 4903; GX 4903 26679 4897; GA 4898 4897 4894; GX 4894 26674 26628;
GX 4894 4896 4893; GX 26661 26628 4889; GX 4903 26673 26629; GX 2614 26629 4890; GA 4889 4890 4888; GX 4888 4896 4887;
GA 4887 4919 4864; GA 4887 2615 4873; GX 4894 4888 4886; GX 4888 4905 26626; GA 4896 4886 4885; GX 4885 4893 4883;
GX 4885 4903 26658; GX 4888 26673 26627; GX 2614 26658 26666; GA 4895 4893 4892; GX 4904 4892 26623; GX 26655 26623 26619;
GX 2608 26619 26622; GX 26666 26627 4884; GA 4884 4913 4874; GA 4884 4915 4865; GX 2610 26619 26618; GX 4892 26661 26676;
GX 26674 26676 4891; GA 4891 4883 4882; GA 4891 4910 4870; GA 4891 4917 4861; GX 4882 4895 4881; GA 4881 4920 4871;
GX 4882 26676 26620; GX 26675 26620 4878; GA 4878 4908 4872; GA 4878 4923 4863; GX 4882 4906 26625; GX 26666 26625 26617;
GX 26617 26618 4876; GA 4876 4909 4868; GX 4868 4871 26663; GX 26648 26617 26624; GA 4881 4916 4862; GX 4870 4873 26671;
GA 4876 4924 4859; GX 4861 4873 26670; GX 4864 26670 26633; GX 26658 26679 4877].
(** aes128_with_ks.txt:24754-25003 *)
Definition aes_enc_file_g99 : list gate := [
GA 4877 4918 4866; GA 4877 4914 4875; GX 4872 4875 26664; GI 26664 26635; GX 26671 26635 26646; GX 26626 4902 26621;
GX 26621 26622 4879; GA 4879 4922 4860; GX 4859 4860 26652; GA 4879 4911 4869; GX 4869 4875 26669; GX 4868 26669 26642;
GX 4869 4872 26640; GX 26621 26624 4880; GA 4880 4912 4867; GX 4863 4867 26665; GX 26669 26665 26637; GX 26663 26665 26677;
GX 4870 26677 26643; GX 4865 26652 26657; GX 4866 26657 26662; GX 26635 26657 26634; GX 26633 26634 26632; GI 26632 26681;
GX 26681 26677 28923; GX 28916 28923 16976; GX 16976 16971 16873; GX 16976 16975 16837; GX 28930 16837 28813; GX 28915 28923 16828;
GX 16827 16828 28789; GX 28930 28923 16650; GX 4874 26662 26667; GX 4871 26667 26678; GX 26664 26678 28925; GX 28918 28925 16972;
GX 16972 16967 16854; GX 28919 16854 28800; GX 28932 28925 16848; GI 16972 16833; GX 16833 16971 16830; GX 16830 16831 28815;
GX 28938 28925 16652; GX 16651 16652 16999; GX 16999 16969 28791; GX 28800 1130 2546; GX 26667 26642 4926; GI 4926 28927;
GX 28920 28927 16968; GI 16968 16846; GX 16846 16648 16852; GX 28935 16852 28802; GX 16846 28941 16844; GX 16968 16967 16826;
GX 28934 16826 28817; GX 28940 28927 16761; GX 16760 16761 16759; GI 16759 28793; GX 28802 1128 2544; GX 2546 2544 27192;
GX 28817 1145 2529; GX 26671 26678 28924; GX 28917 28924 16974; GI 16974 16836; GX 16836 16969 16855; GX 16836 16973 16834;
GX 16834 16835 28814; GI 28924 16647; GX 28931 16647 16654; GX 28937 16647 16646; GX 16645 16646 17001; GX 17001 16971 28790;
GX 28814 1148 2532; GX 28791 1123 2555; GX 28790 1124 2556; GX 28793 1121 2553; GX 2555 2553 27126; GX 28789 1125 2557;
GX 2556 2557 27107; GX 2557 2555 4434; GX 28815 1147 2531; GX 2531 2529 27330; GX 28813 1149 2533; GX 2533 2531 4224;
GX 2532 2533 27311; GX 4862 26652 26672; GX 26672 26643 4927; GX 4863 26672 26645; GX 26645 26646 26644; GX 26304 26644 16979;
GX 26644 16907 28787; GX 16979 16923 16841; GX 26984 16841 28811; GX 16979 16975 16706; GX 28811 1151 2535; GX 2535 2529 27336;
GX 28787 1127 2559; GX 2559 2553 27132; GA 4880 4921 4858; GX 4858 4860 26636; GX 26636 26637 26680; GX 26680 26670 4925;
GI 4925 28926; GX 28919 28926 16970; GX 16970 16966 16853; GX 28920 16853 28801; GX 16970 28940 16847; GX 16847 16848 28808;
GI 28926 16779; GX 28933 16779 16845; GX 16844 16845 28809; GX 16970 16969 16829; GX 28933 16829 28816; GX 28939 16779 16778;
GX 16777 16778 28792; GX 28801 1129 2545; GX 28792 1122 2554; GX 28808 1138 2538; GX 28809 1137 2537; GX 28816 1146 2530;
GX 2530 27336 4220; GX 27330 2530 27295; GX 27126 2554 27091; GX 2559 27091 4429; GA 4429 2559 4415; GX 2554 27132 4430;
GX 2535 27295 4219; GA 4219 2535 4205; GI 4927 28922; GX 28915 28922 16978; GX 16978 16973 16890; GX 28916 16890 28797;
GX 16976 28922 16849; GX 16849 16850 28805; GI 16978 16840; GX 16840 16977 16838; GX 16838 16839 28812; GX 16915 28922 16641;
GX 16641 16642 17003; GX 17003 16975 28788; GX 28812 1150 2534; GX 28788 1126 2558; GX 28797 1133 2549; GX 2534 2533 27348;
GX 2534 2532 27327; GX 2533 27327 27329; GX 27336 27329 4210; GX 2558 4430 4426; GA 4426 4430 4413; GX 2558 2557 27144;
GX 2530 27329 4208; GX 2529 27329 4211; GX 2558 2556 27123; GX 2557 27123 27125; GX 27132 27125 4420; GX 2553 27125 4421;
GX 2554 27125 4418; GX 28805 1141 2541; GX 2534 4220 4216; GA 4216 4220 4203; GX 2544 2549 4361; GX 26663 26662 26641;
GX 26640 26641 28928; GX 28928 28935 16914; GX 28921 28928 16922; GI 16922 16708; GX 16708 28917 16874; GX 16873 16874 16872;
GI 16872 28798; GX 16708 28918 16856; GX 16855 16856 28799; GX 16979 16914 16851; GX 26236 16851 28803; GX 28928 28927 16843;
GX 16842 16843 28810; GX 16966 16914 16825; GX 28921 16825 28818; GX 16914 28920 16740; GX 16740 16741 28794; GX 16977 16922 16723;
GX 26304 16723 28795; GX 16708 28915 16707; GX 16706 16707 16705; GI 16705 28796; GX 16914 28939 16655; GI 16655 16653;
GX 16653 16654 16998; GX 16998 16972 28807; GX 16914 28938 16649; GX 16649 16650 17000; GX 17000 16974 28806; GX 16914 26644 16643;
GX 16643 16644 17002; GX 17002 16978 28804; GX 28807 1139 2539; GX 28799 1131 2547; GX 28798 1132 2548; GX 28806 1140 2540;
GX 2540 2541 27243; GX 2547 2544 4362; GX 2547 2545 27194; GX 28804 1142 2542; GX 2542 2540 27259; GX 28818 1144 2528;
GX 2531 2528 4222; GX 2528 2534 4223; GX 4222 27348 4218; GX 27327 4222 4214; GA 4222 4211 4201; GX 4201 27329 27331;
GA 4218 4214 4207; GX 4207 27330 27335; GX 2542 2541 27280; GX 2539 2537 27262; GX 28810 1136 2536; GX 2538 2536 27260;
GX 2536 2542 4293; GX 2536 2541 4291; GX 27262 27260 27228; GA 4223 4208 4204; GX 27262 2538 27227; GX 27194 27192 27160;
GX 28803 1143 2543; GX 2543 2537 27268; GX 27260 27268 4287; GX 2543 27227 4289; GA 4289 2543 4275; GX 27335 27331 27341;
GX 27259 27228 4282; GA 4291 4282 4269; GX 4269 4275 27271; GX 2538 27271 27286; GX 2528 2533 4221; GX 2549 2547 4364;
GX 2548 2549 27175; GX 27280 4287 4285; GX 2535 4214 4213; GX 2530 2528 27328; GX 27330 27328 27296; GX 27328 4224 4209;
GA 4224 4209 4200; GX 27194 2546 27159; GX 2538 27268 4290; GX 2542 4290 4286; GX 27328 27336 4217; GA 4217 4210 4202;
GX 27348 4217 4215; GA 4215 4213 4206; GX 4200 4206 27340; GX 2528 27340 27355].
(** aes128_with_ks.txt:25004-25253 *)
Definition aes_enc_file_g100 : list gate := [
GX 27355 27341 4198; GX 27192 4364 4349; GA 4364 4349 4340; GX 27327 27296 4212; GA 4221 4212 4199; GX 4199 4202 27333;
GX 4200 27333 27353; GX 4203 27353 27309; GX 2534 27309 4190; GX 2539 2536 4292; GX 27259 4292 4284; GX 2543 4284 4283;
GA 4285 4283 4276; GX 2541 2539 4294; GX 27260 4294 4279; GA 4294 4279 4270; GX 28794 1120 2552; GX 2552 2557 4431;
GX 2552 2558 4433; GA 4433 4418 4414; GX 2555 2552 4432; GX 4432 27144 4428; GA 4432 4421 4411; GX 27123 4432 4424;
GX 2559 4424 4423; GA 4428 4424 4417; GX 4417 27126 27131; GX 4411 27125 27127; GX 27131 27127 27137; GX 28796 1134 2550;
GX 2550 2548 27191; GX 27191 4362 4354; GX 27191 27160 4352; GA 4361 4352 4339; GX 2550 2549 27212; GX 4362 27212 4358;
GA 4358 4354 4347; GX 4347 27194 27199; GX 2544 2550 4363; GX 2549 27191 27193; GX 2546 27193 4348; GX 2545 27193 4351;
GA 4362 4351 4341; GX 4341 27193 27195; GX 27199 27195 27205; GA 4363 4348 4344; GX 4344 27192 27198; GX 4199 4205 27339;
GX 27340 27339 27318; GX 2530 27339 27354; GX 4340 4341 27174; GX 27174 27175 27226; GX 27226 27198 27223; GX 28795 1135 2551;
GX 2551 2545 27200; GX 27200 27193 4350; GX 2551 27159 4359; GX 2551 4354 4353; GA 4359 2551 4345; GX 4339 4345 27203;
GX 2546 27200 4360; GX 2550 4360 4356; GA 4356 4360 4343; GX 27192 27200 4357; GA 4357 4350 4342; GX 4339 4342 27197;
GX 27198 27197 27183; GX 4340 27197 27217; GX 4343 27217 27173; GX 2550 27173 4330; GX 27195 27183 4336; GX 4343 27223 4337;
GX 4270 4276 27272; GX 27272 27271 27250; GX 2536 27272 27287; GX 2554 2552 27124; GX 27124 4434 4419; GX 27126 27124 27092;
GX 27123 27092 4422; GA 4431 4422 4409; GX 4414 27124 27130; GX 4409 4415 27135; GX 2554 27135 27150; GX 27124 27132 4427;
GX 27144 4427 4425; GA 4434 4419 4410; GA 4427 4420 4412; GX 4409 4412 27129; GX 27130 27129 27115; GX 27127 27115 4406;
GX 4410 4411 27106; GX 27106 27107 27158; GX 27158 27130 27155; GX 4413 27155 4407; GX 4410 27129 27149; GX 4413 27149 27105;
GX 2558 27105 4400; GA 4425 4423 4416; GX 4410 4416 27136; GX 27136 27135 27114; GX 27124 27114 4405; GX 2552 27136 27151;
GX 27151 27137 4408; GA 4408 4407 4404; GX 4404 4406 4403; GX 4404 27150 27104; GX 27137 27104 4399; GA 4405 4403 4402;
GA 4399 4400 4398; GX 4398 27149 27103; GX 4398 4415 27102; GX 4398 4406 4397; GA 4397 2559 4383; GA 4397 4429 4374;
GX 4404 4398 4396; GA 4406 4396 4395; GX 4395 4413 27134; GX 4395 4403 4393; GX 2558 27134 27142; GX 27142 27103 4394;
GA 4394 4423 4384; GX 27134 27155 4387; GA 4387 4424 4385; GA 4387 4428 4376; GA 4394 4425 4375; GX 27102 4412 27097;
GX 4414 4402 27099; GX 27131 27099 27095; GX 2554 27095 27094; GX 2552 27095 27098; GX 27097 27098 4389; GA 4389 4432 4370;
GA 4389 4421 4379; GX 4402 27137 27152; GX 27150 27152 4401; GA 4401 4427 4371; GX 4371 4383 27146; GX 4374 27146 27109;
GA 4401 4393 4392; GX 4392 4405 4391; GA 4391 4426 4372; GX 4392 27152 27096; GX 27151 27096 4388; GA 4388 4433 4373;
GA 4388 4418 4382; GX 4379 4382 27116; GX 4382 4385 27140; GI 27140 27111; GA 4391 4430 4381; GX 4379 4385 27145;
GA 4401 4420 4380; GX 4380 4383 27147; GX 27147 27111 27122; GX 4392 4416 27101; GX 27142 27101 27093; GX 27093 27094 4386;
GA 4386 4434 4369; GA 4386 4419 4378; GX 27124 27093 27100; GX 4378 4381 27139; GX 27097 27100 4390; GA 4390 4431 4368;
GX 4368 4370 27112; GX 4378 27145 27118; GA 4390 4422 4377; GX 4373 4377 27141; GX 4369 4370 27128; GX 4375 27128 27133;
GX 27111 27133 27110; GX 27109 27110 27108; GI 27108 27157; GX 4372 27128 27148; GX 4373 27148 27121; GX 27121 27122 27120;
GX 27120 27460 17300; GX 17300 17271 17250; GX 4376 27133 27138; GX 27139 27138 27117; GX 27116 27117 28765; GX 4384 27138 27143;
GX 28765 28772 17279; GX 4381 27143 27154; GX 27140 27154 28762; GX 17242 28762 17268; GX 17279 28762 17256; GX 28762 28769 17293;
GX 27147 27154 28761; GX 17279 28761 17258; GX 28761 28768 17295; GX 27143 27118 4436; GI 4436 28764; GX 28764 28771 17289;
GI 17289 17243; GX 27145 27141 27113; GX 27112 27113 27156; GX 27156 27146 4435; GI 4435 28763; GX 28771 28763 17266;
GX 28763 28770 17291; GX 27212 4357 4355; GA 4355 4353 4346; GX 4340 4346 27204; GX 2544 27204 27219; GX 27204 27203 27182;
GX 27192 27182 4335; GX 27219 27205 4338; GA 4338 4337 4334; GX 4334 4336 4333; GA 4335 4333 4332; GX 4332 27205 27220;
GX 4344 4332 27167; GX 27199 27167 27163; GX 2546 27163 27162; GX 2544 27163 27166; GX 2546 27203 27218; GX 27218 27220 4331;
GA 4331 4350 4310; GX 4334 27218 27172; GX 27205 27172 4329; GA 4329 4330 4328; GX 4334 4328 4326; GA 4336 4326 4325;
GX 4325 4333 4323; GX 4328 4336 4327; GA 4331 4323 4322; GX 4322 27220 27164; GX 4325 4343 27202; GX 2550 27202 27210;
GX 4328 27217 27171; GX 4322 4346 27169; GA 4331 4357 4301; GX 27210 27171 4324; GA 4324 4353 4314; GX 27210 27169 27161;
GX 27161 27162 4316; GA 4316 4364 4299; GA 4316 4349 4308; GX 27192 27161 27168; GX 27219 27164 4318; GA 4318 4363 4303;
GA 4318 4348 4312; GX 27202 27223 4317; GA 4317 4358 4306; GA 4317 4354 4315; GX 4312 4315 27208; GA 4324 4355 4305;
GA 4327 4359 4304; GX 4328 4345 27170; GX 27170 4342 27165; GX 27165 27168 4320].
(** aes128_with_ks.txt:25254-25503 *)
Definition aes_enc_file_g101 : list gate := [
GA 4320 4352 4307; GX 4303 4307 27209; GX 27165 27166 4319; GA 4319 4351 4309; GA 4319 4362 4300; GX 4299 4300 27196;
GX 4305 27196 27201; GX 4306 27201 27206; GX 4314 27206 27211; GX 4309 4315 27213; GX 4308 27213 27186; GX 27211 27186 4366;
GX 27213 27209 27181; GI 4366 28743; GX 4309 4312 27184; GA 4320 4361 4298; GX 4298 4300 27180; GX 27180 27181 27224;
GA 4327 2551 4313; GX 4301 4313 27214; GX 4304 27214 27177; GX 27224 27214 4365; GI 4365 28742; GI 28742 17095;
GX 28749 17095 17094; GX 4310 4313 27215; GX 4200 4201 27310; GX 27310 27311 27362; GX 4292 27280 4288; GA 4288 4284 4277;
GX 4277 27262 27267; GX 27328 27318 4195; GX 27260 27250 4265; GX 27139 27141 27153; GX 27157 27153 28760; GX 28760 28767 17297;
GX 4380 27153 27119; GX 27148 27119 4437; GI 4437 28759; GX 28759 28766 17299; GX 17279 28759 17261; GX 4204 27328 27334;
GX 27362 27334 27359; GX 4203 27359 4197; GA 4198 4197 4194; GX 4194 27354 27308; GX 27341 27308 4189; GX 27334 27333 27319;
GA 4189 4190 4188; GX 4188 27353 27307; GX 27331 27319 4196; GX 4188 4196 4187; GA 4187 2535 4173; GA 4187 4219 4164;
GX 4194 4196 4193; GA 4195 4193 4192; GX 4204 4192 27303; GX 27335 27303 27299; GX 2528 27299 27302; GX 2530 27299 27298;
GX 4192 27341 27356; GX 27354 27356 4191; GA 4191 4210 4170; GA 4191 4217 4161; GX 4161 4173 27350; GX 4164 27350 27313;
GX 4188 4205 27306; GX 4170 4173 27351; GX 27306 4202 27301; GX 27301 27302 4179; GA 4179 4222 4160; GA 4179 4211 4169;
GX 2541 27259 27261; GX 2538 27261 4278; GX 27268 27261 4280; GA 4287 4280 4272; GA 4293 4278 4274; GX 4274 27260 27266;
GX 2537 27261 4281; GA 4292 4281 4271; GX 4270 4271 27242; GX 27242 27243 27294; GX 4271 27261 27263; GX 27267 27263 27273;
GX 27287 27273 4268; GX 27294 27266 27291; GX 4269 4272 27265; GX 4270 27265 27285; GX 27266 27265 27251; GX 27263 27251 4266;
GX 4194 4188 4186; GA 4196 4186 4185; GX 4185 4193 4183; GA 4191 4183 4182; GX 4182 4195 4181; GA 4181 4216 4162;
GA 4181 4220 4171; GX 4182 27356 27300; GX 27355 27300 4178; GA 4178 4208 4172; GX 4169 4172 27320; GX 4185 4203 27338;
GX 27338 27359 4177; GA 4177 4218 4166; GA 4177 4214 4175; GX 4172 4175 27344; GX 4169 4175 27349; GX 2534 27338 27346;
GX 27346 27307 4184; GA 4184 4213 4174; GA 4184 4215 4165; GX 4182 4206 27305; GX 27346 27305 27297; GX 27328 27297 27304;
GX 27301 27304 4180; GA 4180 4212 4167; GA 4180 4221 4158; GX 4158 4160 27316; GI 27344 27315; GX 27351 27315 27326;
GX 27297 27298 4176; GA 4176 4224 4159; GX 4159 4160 27332; GA 4176 4209 4168; GX 4168 27349 27322; GX 4168 4171 27343;
GX 4162 27332 27352; GX 4165 27332 27337; GX 27315 27337 27314; GX 27313 27314 27312; GI 27312 27361; GX 4166 27337 27342;
GX 4174 27342 27347; GX 27343 27342 27321; GX 27320 27321 28702; GX 28681 28702 17278; GX 17278 28677 17014; GX 17278 28682 17004;
GX 4171 27347 27358; GX 27344 27358 28699; GX 28699 17142 17141; GX 27351 27358 28698; GX 28698 28685 17015; GX 17014 17015 17362;
GI 17278 17011; GX 17011 28676 17008; GX 17209 17011 17215; GX 27347 27322 4226; GI 4226 28701; GX 28702 28701 17104;
GX 17209 28701 17207; GA 4178 4223 4163; GX 4163 27352 27325; GX 27325 27326 27324; GX 27324 27392 17005; GX 17004 17005 17366;
GX 4163 4167 27345; GX 27343 27345 27357; GX 4170 27357 27323; GX 27352 27323 4227; GI 4227 28696; GX 27361 27357 28697;
GX 28697 17010 17009; GX 17008 17009 17364; GX 27349 27345 27317; GX 27316 27317 27360; GX 27360 27350 4225; GI 4225 28700;
GX 28700 28687 17124; GX 17333 28700 17210; GA 4286 4290 4273; GX 4273 27291 4267; GA 4268 4267 4264; GX 4273 27285 27241;
GX 4264 27286 27240; GX 2542 27241 4260; GX 4264 4266 4263; GA 4265 4263 4262; GX 4262 27273 27288; GX 27286 27288 4261;
GA 4261 4280 4240; GA 4261 4287 4231; GX 4274 4262 27235; GX 27267 27235 27231; GX 2536 27231 27234; GX 27273 27240 4259;
GA 4259 4260 4258; GX 4258 4275 27238; GX 27238 4272 27233; GX 27233 27234 4249; GX 4264 4258 4256; GA 4249 4281 4239;
GX 4258 27285 27239; GA 4266 4256 4255; GX 4255 4263 4253; GA 4261 4253 4252; GX 4252 4276 27237; GX 4252 27288 27232;
GX 4252 4265 4251; GA 4251 4286 4232; GA 4251 4290 4241; GA 4249 4292 4230; GX 4258 4266 4257; GA 4257 4289 4234;
GX 4255 4273 27270; GX 27270 27291 4247; GA 4247 4284 4245; GX 4239 4245 27281; GA 4247 4288 4236; GX 2542 27270 27278;
GX 27278 27239 4254; GA 4254 4283 4244; GA 4254 4285 4235; GX 27278 27237 27229; GX 27260 27229 27236; GX 27233 27236 4250;
GA 4250 4291 4228; GA 4250 4282 4237; GX 4228 4230 27248; GI 27208 27179; GX 27215 27179 27190; GX 27179 27201 27178;
GX 27177 27178 27176; GI 27176 27225; GA 4257 2543 4243; GX 4231 4243 27282; GX 4234 27282 27245; GX 4240 4243 27283;
GX 26739 26703 26714; GX 26713 26714 26712; GX 26712 27052 16935; GX 16935 16916 16899; GX 26032 16899 28891; GX 26712 16871 28907;
GX 16936 16935 16868; GX 16868 16869 16867; GI 16867 28908; GX 16935 16909 16711; GX 26372 16711 28883; GX 26712 26372 16693;
GX 16692 16693 16984; GX 16984 16936 28900; GX 28883 1031 2463; GX 28891 1039 2455; GX 28907 1055 2439; GX 28908 1054 2438;
GX 2438 2436 28143; GX 2437 28143 28145; GX 2463 27907 3589; GX 2455 3514 3513].
(** aes128_with_ks.txt:25504-25753 *)
Definition aes_enc_file_g102 : list gate := [
GX 2439 28111 3379; GA 3379 2439 3365; GX 2463 3584 3583; GX 2439 2433 28152; GX 28152 28145 3370; GX 28144 28152 3377;
GA 3377 3370 3362; GX 2434 28152 3380; GX 28900 1046 2446; GX 2446 2444 28075; GX 28075 3452 3444; GX 2447 3444 3443;
GX 2445 28075 28077; GX 2432 2438 3383; GX 2446 2445 28096; GX 28096 3447 3445; GA 3445 3443 3436; GX 3430 3436 28088;
GX 2440 28088 28103; GA 3589 2463 3575; GX 3569 3575 27951; GX 2438 2437 28164; GX 28164 3377 3375; GX 3382 28164 3378;
GX 2463 2457 27948; GX 27948 27941 3580; GX 27940 27948 3587; GX 27960 3587 3585; GA 3585 3583 3576; GX 3570 3576 27952;
GX 2434 28145 3368; GX 28143 3382 3374; GA 3378 3374 3367; GX 3367 28146 28151; GX 2455 2449 28016; GX 28008 28016 3517;
GX 2456 27952 27967; GX 27967 27953 3568; GX 28084 28077 3440; GA 3447 3440 3432; GX 2442 28077 3438; GX 28075 28044 3442;
GA 3451 3442 3429; GX 3429 3432 28081; GX 3430 28081 28101; GX 3429 3435 28087; GX 2442 28087 28102; GX 28088 28087 28066;
GX 28076 28066 3425; GA 3383 3368 3364; GX 3364 28144 28150; GX 2458 27951 27966; GX 27952 27951 27930; GX 27940 27930 3565;
GX 28143 28112 3372; GA 3381 3372 3359; GX 3359 3365 28155; GX 3359 3362 28149; GX 28150 28149 28135; GX 3360 28149 28169;
GX 2438 3380 3376; GA 3376 3380 3363; GX 3363 28169 28125; GX 2438 28125 3350; GX 2434 28155 28170; GX 2446 3450 3446;
GA 3446 3450 3433; GX 3433 28101 28057; GX 2433 28145 3371; GA 3382 3371 3361; GX 3361 28145 28147; GX 28151 28147 28157;
GX 3360 3361 28126; GX 28126 28127 28178; GX 28178 28150 28175; GX 28147 28135 3356; GX 3363 28175 3357; GX 3452 28096 3448;
GA 3448 3444 3437; GX 3437 28078 28083; GX 2441 28077 3441; GX 2439 3374 3373; GA 3375 3373 3366; GX 3360 3366 28156;
GX 2432 28156 28171; GX 28156 28155 28134; GX 28144 28134 3355; GX 28171 28157 3358; GA 3358 3357 3354; GX 3354 3356 3353;
GX 3354 28170 28124; GX 28157 28124 3349; GA 3349 3350 3348; GX 3348 28169 28123; GX 3348 3356 3347; GA 3347 2439 3333;
GA 3347 3379 3324; GX 3354 3348 3346; GA 3356 3346 3345; GX 3345 3353 3343; GX 3345 3363 28154; GX 28154 28175 3337;
GA 3337 3374 3335; GA 3337 3378 3326; GX 2438 28154 28162; GX 3348 3365 28122; GX 28122 3362 28117; GA 3355 3353 3352;
GX 3364 3352 28119; GX 3352 28157 28172; GX 28170 28172 3351; GA 3351 3377 3321; GA 3351 3370 3330; GX 3330 3333 28167;
GX 28151 28119 28115; GX 2434 28115 28114; GX 2432 28115 28118; GX 28117 28118 3339; GA 3339 3382 3320; GA 3339 3371 3329;
GX 3329 3335 28165; GA 3351 3343 3342; GX 3342 28172 28116; GX 3342 3355 3341; GA 3341 3380 3331; GA 3341 3376 3322;
GX 3342 3366 28121; GX 28162 28121 28113; GX 28144 28113 28120; GX 28113 28114 3336; GA 3336 3369 3328; GX 3328 3331 28159;
GX 3328 28165 28138; GA 3336 3384 3319; GX 3319 3320 28148; GX 3322 28148 28168; GX 28117 28120 3340; GA 3340 3372 3327;
GX 3321 3333 28166; GX 3324 28166 28129; GA 3340 3381 3318; GX 3318 3320 28132; GX 28162 28123 3344; GA 3344 3373 3334;
GA 3344 3375 3325; GX 3325 28148 28153; GX 3326 28153 28158; GX 28159 28158 28137; GX 3334 28158 28163; GX 28163 28138 3386;
GI 3386 28785; GX 3331 28163 28174; GX 28167 28174 28782; GX 17271 28782 17061; GX 28782 28769 17064; GX 28778 28785 17287;
GX 17291 17287 17252; GX 28764 17252 28657; GX 28657 1161 2321; GX 17287 17271 17220; GX 28765 17220 28674; GX 28785 28764 17264;
GX 17061 17062 17345; GX 17345 17295 28662; GX 28775 28782 17292; GX 17293 17292 17224; GX 17243 28785 17240; GX 17240 17241 28665;
GX 17297 17292 17257; GX 17257 17258 28654; GX 28654 1164 2324; GX 28674 1176 2304; GX 2440 2446 3453; GA 3453 3438 3434;
GA 3587 3580 3572; GX 3569 3572 27945; GX 3570 27945 27965; GX 27946 27945 27931; GX 27943 27931 3566; GX 28171 28116 3338;
GA 3338 3368 3332; GX 3332 3335 28160; GX 28160 28174 28783; GX 28776 28783 17290; GX 17271 28783 17067; GI 17067 17065;
GX 17065 17066 17343; GI 28160 28131; GX 28167 28131 28142; GX 3329 3332 28136; GX 28136 28137 28786; GX 17295 17290 17255;
GX 17291 17290 17222; GX 28777 17222 28672; GX 17255 17256 28655; GX 28655 1163 2323; GX 2323 2321 18218; GX 17343 17293 28663;
GX 28663 1171 2315; GX 28779 28786 17280; GX 17280 17233 17232; GX 17280 28775 17228; GX 28131 28153 28130; GX 28129 28130 28128;
GI 28128 28177; GA 3338 3383 3323; GX 3323 3327 28161; GX 28165 28161 28133; GX 28132 28133 28176; GX 28176 28166 3385;
GX 28159 28161 28173; GX 3330 28173 28139; GI 3385 28784; GX 17291 28784 17245; GX 28777 28784 17288; GX 17293 17288 17254;
GX 28763 17254 28656; GX 28656 1162 2322; GX 18218 2322 18183; GI 17288 17269; GX 17287 28784 17265; GX 17265 17266 28649;
GX 28649 1153 2329; GX 17269 28783 17267; GX 28168 28139 3387; GI 3387 28780; GX 17271 28780 17055; GX 17055 17056 17347;
GX 17347 17299 28660; GX 28660 1174 2318; GX 28780 28767 17073; GX 28773 28780 17296; GX 17300 17296 17260; GX 17297 17296 17229;
GX 28774 17229 28669; GX 28669 1181 2309; GX 2304 2309 13461; GX 17260 17261 28652; GX 28177 28173 28781; GX 28774 28781 17294;
GX 17295 17294 17227; GX 17294 28759 17072; GX 17072 17073 28645; GX 28645 1157 2333; GX 17227 17228 28670; GX 17297 28781 17249;
GI 17249 17247; GX 17247 17248 28661; GX 28661 1173 2317; GX 2318 2317 18304].
(** aes128_with_ks.txt:25754-26003 *)
Definition aes_enc_file_g103 : list gate := [
GX 2317 2315 13535; GX 17271 28786 17263; GX 17263 17264 28650; GX 28650 1152 2328; GX 2328 2333 13674; GX 17280 17226 17225;
GX 17224 17225 17223; GX 28765 28786 17272; GI 17272 17060; GX 17243 17060 17251; GX 17272 28761 17063; GX 28779 17251 28658;
GX 17272 27120 17053; GX 17060 28760 17057; GX 28658 1160 2320; GX 2323 2320 13604; GX 17063 17064 17344; GX 17267 17268 28648;
GX 28648 1154 2330; GX 2330 2328 18148; GX 2322 2320 18216; GX 18218 18216 18184; GX 28672 1178 2306; GX 17289 17288 17221;
GX 28781 17059 17058; GX 17057 17058 17346; GX 17346 17292 28646; GX 28646 1156 2332; GX 2332 2333 18131; GX 17245 17246 17244;
GI 17244 28664; GX 28664 1170 2314; GX 17299 17294 17259; GI 17223 28671; GX 28671 1179 2307; GX 2309 2307 13464;
GX 2307 2304 13462; GX 17344 17290 28647; GX 28647 1155 2331; GX 2333 2331 13677; GX 18148 13677 13662; GX 2331 2329 18150;
GX 2331 2328 13675; GX 18150 2330 18115; GX 18150 18148 18116; GA 13677 13662 13653; GX 28778 17221 28673; GX 28673 1177 2305;
GX 2307 2305 18354; GX 18354 2306 18319; GX 28760 17259 28653; GX 28653 1165 2325; GX 2324 2325 18199; GX 2325 2323 13606;
GX 18216 13606 13591; GA 13606 13591 13582; GX 2320 2325 13603; GX 28652 1166 2326; GX 2326 2325 18236; GX 2326 2324 18215;
GX 18215 13604 13596; GX 18215 18184 13594; GX 2325 18215 18217; GX 2322 18217 13590; GA 13603 13594 13581; GX 2321 18217 13593;
GA 13604 13593 13583; GX 13582 13583 18198; GX 18198 18199 18250; GX 13583 18217 18219; GX 13604 18236 13600; GA 13600 13596 13589;
GX 13589 18218 18223; GX 18223 18219 18229; GX 2320 2326 13605; GA 13605 13590 13586; GX 13586 18216 18222; GX 18250 18222 18247;
GX 3323 28168 28141; GX 28141 28142 28140; GX 27800 28140 17298; GX 17298 17272 17074; GX 28140 17250 28659; GX 28659 1175 2319;
GX 17298 17279 17262; GX 27460 17074 28643; GX 28643 1159 2335; GX 2335 2329 18156; GX 2330 18156 13673; GX 18148 18156 13670;
GX 2335 18115 13672; GA 13672 2335 13658; GX 17299 17298 17231; GX 17231 17232 17230; GX 27120 17262 28651; GX 28651 1167 2327;
GX 2327 18183 13601; GX 2327 2321 18224; GA 13601 2327 13587; GX 18224 18217 13592; GX 13581 13587 18227; GX 2322 18227 18242;
GX 18216 18224 13599; GA 13599 13592 13584; GX 2322 18224 13602; GX 2326 13602 13598; GA 13598 13602 13585; GX 18236 13599 13597;
GX 13585 18247 13579; GX 13581 13584 18221; GX 18222 18221 18207; GX 18219 18207 13578; GX 13582 18221 18241; GX 13585 18241 18197;
GX 2326 18197 13572; GX 28140 28766 17054; GX 17053 17054 17348; GX 17348 17296 28644; GX 28644 1158 2334; GX 2334 13673 13669;
GX 2334 2333 18168; GX 18168 13670 13668; GX 13675 18168 13671; GX 2334 2332 18147; GX 2333 18147 18149; GX 18156 18149 13663;
GA 13670 13663 13655; GX 18147 13675 13667; GX 2335 13667 13666; GA 13671 13667 13660; GA 13668 13666 13659; GX 13653 13659 18160;
GX 2328 18160 18175; GA 13669 13673 13656; GX 18147 18116 13665; GA 13674 13665 13652; GX 13652 13658 18159; GX 18160 18159 18138;
GX 13652 13655 18153; GX 13653 18153 18173; GX 13656 18173 18129; GX 2334 18129 13643; GX 2330 18159 18174; GX 13660 18150 18155;
GX 2329 18149 13664; GA 13675 13664 13654; GX 13653 13654 18130; GX 18130 18131 18182; GX 13654 18149 18151; GX 18155 18151 18161;
GX 18175 18161 13651; GX 18148 18138 13648; GX 2328 2334 13676; GX 2330 18149 13661; GA 13676 13661 13657; GX 13657 18148 18154;
GX 18182 18154 18179; GX 18154 18153 18139; GX 18151 18139 13649; GX 2327 13596 13595; GA 13597 13595 13588; GX 13582 13588 18228;
GX 2320 18228 18243; GX 18228 18227 18206; GX 18216 18206 13577; GX 18243 18229 13580; GA 13580 13579 13576; GX 13576 13578 13575;
GX 13576 18242 18196; GX 18229 18196 13571; GA 13577 13575 13574; GX 13586 13574 18191; GX 18223 18191 18187; GX 2320 18187 18190;
GX 13574 18229 18244; GX 2322 18187 18186; GA 13571 13572 13570; GX 13570 18241 18195; GX 13570 13578 13569; GA 13569 13601 13546;
GX 13570 13587 18194; GX 13576 13570 13568; GX 18194 13584 18189; GX 18189 18190 13561; GA 13561 13593 13551; GA 13578 13568 13567;
GX 13567 13585 18226; GX 2326 18226 18234; GX 18234 18195 13566; GA 13566 13597 13547; GX 18242 18244 13573; GA 13573 13592 13552;
GA 13573 13599 13543; GX 18226 18247 13559; GA 13559 13600 13548; GA 13561 13604 13542; GA 13559 13596 13557; GX 13551 13557 18237;
GX 17272 28778 17238; GX 17238 17239 28666; GX 28666 1168 2312; GX 2314 2312 18284; GX 18284 13535 13520; GX 2312 2318 13534;
GX 2312 2317 13532; GX 2315 2312 13533; GX 13533 18304 13529; GX 3434 28076 28082; GX 28082 28081 28067; GX 2458 27948 3590;
GX 2462 3590 3586; GA 3586 3590 3573; GX 3573 27971 3567; GA 3568 3567 3564; GX 3564 3566 3563; GA 3565 3563 3562;
GX 3574 3562 27915; GX 27947 27915 27911; GX 3564 27966 27920; GX 27953 27920 3559; GX 2458 27911 27910; GX 3573 27965 27921;
GX 3562 27953 27968; GX 27966 27968 3561; GA 3561 3587 3531; GX 2462 27921 3560; GA 3559 3560 3558; GX 3558 3575 27918;
GX 27918 3572 27913; GX 3558 3566 3557; GA 3557 2463 3543; GX 3531 3543 27962; GX 2456 27911 27914; GX 27913 27914 3549;
GA 3549 3592 3530; GX 3558 27965 27919; GA 3549 3581 3539; GX 3564 3558 3556; GA 3566 3556 3555; GX 3555 3563 3553;
GA 3561 3553 3552; GX 3552 27968 27912; GX 27967 27912 3548; GA 3548 3578 3542; GX 3539 3542 27932; GX 3552 3565 3551;
GA 3551 3586 3532; GA 3551 3590 3541; GA 3548 3593 3533; GX 3555 3573 27950].
(** aes128_with_ks.txt:26004-26253 *)
Definition aes_enc_file_g104 : list gate := [
GX 2462 27950 27958; GX 27958 27919 3554; GA 3554 3583 3544; GX 27950 27971 3547; GA 3547 3588 3536; GA 3547 3584 3545;
GX 3539 3545 27961; GX 3552 3576 27917; GX 27958 27917 27909; GX 27940 27909 27916; GX 27913 27916 3550; GA 3550 3591 3528;
GX 3528 3530 27928; GA 3550 3582 3537; GX 27909 27910 3546; GA 3546 3594 3529; GX 3529 3530 27944; GA 3546 3579 3538;
GX 3538 3541 27955; GX 3532 27944 27964; GX 3538 27961 27934; GX 3533 27964 27937; GX 2455 27975 3519; GX 3533 3537 27957;
GX 27961 27957 27929; GX 27928 27929 27972; GX 27972 27962 3595; GX 27955 27957 27969; GX 2446 28057 3420; GA 3561 3580 3540;
GX 3540 27969 27935; GX 27964 27935 3597; GI 3597 28731; GX 3540 3543 27963; GX 3542 3545 27956; GI 27956 27927;
GX 27963 27927 27938; GX 27937 27938 27936; GX 28028 3517 3515; GA 3515 3513 3506; GX 3500 3506 28020; GX 2448 28020 28035;
GX 28035 28021 3498; GA 3452 3441 3431; GX 3431 28077 28079; GX 28083 28079 28089; GX 28079 28067 3426; GX 3430 3431 28058;
GX 28058 28059 28110; GX 28110 28082 28107; GX 3433 28107 3427; GX 28103 28089 3428; GA 3519 2455 3505; GX 3499 3505 28019;
GX 2450 28019 28034; GX 28016 28009 3510; GA 3517 3510 3502; GX 3499 3502 28013; GX 3500 28013 28033; GX 28014 28013 27999;
GX 2450 28016 3520; GX 2454 3520 3516; GA 3516 3520 3503; GX 3503 28033 27989; GX 3503 28039 3497; GA 3498 3497 3494;
GX 3494 28034 27988; GX 28021 27988 3489; GX 2454 27989 3490; GA 3489 3490 3488; GX 3488 3505 27986; GX 27986 3502 27981;
GX 3488 28033 27987; GA 3554 3585 3535; GX 3535 27944 27949; GX 27927 27949 27926; GX 3536 27949 27954; GX 3544 27954 27959;
GX 27959 27934 3596; GI 3596 28736; GX 27955 27954 27933; GX 3541 27959 27970; GX 27956 27970 28734; GX 17095 28734 17127;
GX 28736 28743 17303; GX 17303 17302 17076; GI 17303 17096; GX 17096 28757 17093; GX 17093 17094 28633; GX 28633 1201 2345;
GX 28750 17076 28641; GX 28641 1209 2337; GX 27932 27933 28737; GX 28737 28758 17274; GI 17274 17039; GX 17096 17039 17105;
GX 28751 17105 28626; GX 17274 28750 17091; GX 28626 1192 2352; GX 17039 28753 17042; GX 17274 28754 17049; GX 17039 27868 17036;
GX 17312 17274 17132; GX 28757 28736 17119; GX 17126 17127 28616; GX 28616 1186 2362; GX 27963 27970 28733; GA 3557 3589 3534;
GX 3534 27962 27925; GX 27925 27926 27924; GI 27924 27973; GX 27973 27969 28732; GA 3428 3427 3424; GX 3424 28102 28056;
GX 3424 3426 3423; GA 3425 3423 3422; GX 3434 3422 28051; GX 28083 28051 28047; GX 2442 28047 28046; GX 2440 28047 28050;
GX 3422 28089 28104; GX 28102 28104 3421; GA 3421 3447 3391; GX 28089 28056 3419; GA 3419 3420 3418; GX 3418 3426 3417;
GA 3417 2447 3403; GA 3417 3449 3394; GX 3418 3435 28054; GX 28054 3432 28049; GX 3424 3418 3416; GA 3426 3416 3415;
GX 28049 28050 3409; GA 3409 3452 3390; GX 3415 3433 28086; GX 2446 28086 28094; GX 28086 28107 3407; GA 3407 3448 3396;
GA 3409 3441 3399; GX 3418 28101 28055; GX 28094 28055 3414; GA 3414 3445 3395; GA 3414 3443 3404; GX 3415 3423 3413;
GA 3421 3413 3412; GX 3412 3436 28053; GX 3412 28104 28048; GX 28103 28048 3408; GA 3408 3453 3393; GA 3408 3438 3402;
GX 3399 3402 28068; GX 28094 28053 28045; GX 28045 28046 3406; GX 28076 28045 28052; GX 28049 28052 3410; GA 3410 3451 3388;
GX 3388 3390 28064; GA 3410 3442 3397; GX 3393 3397 28093; GA 3406 3454 3389; GX 3389 3390 28080; GX 3395 28080 28085;
GX 3396 28085 28090; GX 3404 28090 28095; GA 3406 3439 3398; GX 3412 3425 3411; GA 3411 3450 3401; GX 3401 28095 28106;
GA 3411 3446 3392; GA 3407 3444 3405; GX 3399 3405 28097; GX 28097 28093 28065; GX 28064 28065 28108; GX 3402 3405 28092;
GI 28092 28063; GX 28063 28085 28062; GX 28092 28106 28692; GX 28692 28685 17211; GX 28692 28699 17332; GX 17333 17332 17192;
GX 17362 17332 28551; GX 17210 17211 28568; GX 28568 1266 2410; GX 28551 1251 2427; GX 17199 17332 17218; GX 17218 17219 28559;
GX 28559 1259 2419; GX 3398 28097 28070; GX 28095 28070 3456; GI 3456 28694; GX 17278 28694 17205; GX 28694 28701 17329;
GI 17329 17125; GX 17333 17329 17216; GX 28680 17216 28561; GX 28561 1257 2417; GX 2419 2417 17402; GX 17205 17206 28570;
GX 28570 1264 2408; GX 2410 2408 17468; GX 17125 28679 17123; GX 17123 17124 17122; GI 17122 28553; GX 28553 1249 2425;
GX 2427 2425 2848; GX 28011 27999 3496; GX 3494 3496 3493; GX 3488 3496 3487; GA 3487 2455 3473; GA 3487 3519 3464;
GI 3595 28735; GX 28743 28735 17121; GX 17120 17121 28617; GX 28617 1185 2361; GX 28735 28742 17305; GX 17305 17304 17077;
GX 17305 28756 17097; GX 28749 17077 28640; GX 17305 17301 17106; GX 28640 1210 2338; GX 28736 17106 28625; GX 28625 1193 2353;
GX 3494 3488 3486; GA 3496 3486 3485; GX 3485 3503 28018; GX 28018 28039 3477; GA 3477 3514 3475; GA 3477 3518 3466;
GX 3485 3493 3483; GX 2454 28018 28026; GX 28026 27987 3484; GA 3484 3515 3465; GA 3484 3513 3474; GX 3392 28080 28100;
GX 3393 28100 28073; GA 3421 3440 3400; GX 3400 3403 28099; GX 28099 28063 28074; GX 28073 28074 28072; GX 28696 28072 17007;
GX 28072 27324 17340; GX 17340 17278 17270; GX 17203 17340 17201; GX 17340 17285 17086; GX 27392 17086 28555; GX 28555 1263 2423;
GX 2423 2417 17408; GX 28099 28106 28691; GX 28691 28698 17334; GX 17196 17334 17193].
(** aes128_with_ks.txt:26254-26503 *)
Definition aes_enc_file_g105 : list gate := [
GX 17364 17334 28550; GX 27732 17270 28547; GX 28547 1255 2431; GX 2431 2425 2842; GX 28691 17010 17017; GX 17339 17334 17236;
GX 17236 17237 17235; GI 17235 28558; GX 28558 1260 2420; GA 13566 13595 13556; GA 13569 2327 13555; GX 13552 13555 18239;
GX 13543 13555 18238; GX 13546 18238 18201; GX 3398 3401 28091; GX 28091 28093 28105; GX 3400 28105 28071; GX 28100 28071 3457;
GI 3457 28689; GX 28689 28696 17338; GX 17366 17338 28548; GX 28548 1254 2430; GX 17342 17338 17069; GX 17069 17070 17068;
GI 17068 28556; GX 28556 1262 2422; GX 2422 2420 17399; GX 17339 17338 17200; GX 28091 28090 28069; GX 28068 28069 28695;
GX 28695 28702 17286; GX 28688 28695 17277; GX 17277 28699 17018; GX 17277 27732 17006; GX 17006 17007 17365; GX 17342 17277 17214;
GX 27324 17214 28563; GX 28563 1271 2415; GX 17277 28680 17103; GX 17103 17104 28554; GX 28554 1248 2424; GI 17286 17195;
GX 17195 28691 17198; GX 17195 28692 17194; GX 17193 17194 28575; GX 28575 1275 2403; GX 17195 28689 17202; GX 17365 17341 28564;
GX 28564 1270 2414; GX 2408 2414 14386; GX 17329 17277 17188; GX 28681 17188 28578; GX 28578 1272 2400; GI 17018 17016;
GX 17016 17017 17361; GX 17361 17335 28567; GX 28567 1267 2411; GX 2411 2408 14385; GX 17342 17286 17204; GX 17277 28698 17012;
GX 28072 17204 28571; GX 28571 1279 2407; GX 2424 2430 2949; GX 28695 17215 28562; GX 28562 1256 2416; GX 2419 2416 14456;
GX 2416 2422 14457; GX 17399 14456 14448; GX 2423 14448 14447; GX 28020 28019 27998; GX 28008 27998 3495; GA 3495 3493 3492;
GX 3504 3492 27983; GX 28015 27983 27979; GX 2450 27979 27978; GX 3492 28021 28036; GX 2448 27979 27982; GX 28034 28036 3491;
GA 3491 3483 3482; GX 3482 3495 3481; GA 3481 3516 3462; GA 3481 3520 3471; GX 3482 3506 27985; GX 3482 28036 27980;
GX 28035 27980 3478; GA 3478 3508 3472; GA 3478 3523 3463; GX 3472 3475 28024; GI 28024 27995; GA 3491 3510 3470;
GX 3470 3473 28031; GX 28031 27995 28006; GX 28026 27985 27977; GX 28008 27977 27984; GX 27981 27984 3480; GA 3480 3512 3467;
GX 3463 3467 28025; GA 3480 3521 3458; GX 27977 27978 3476; GA 3476 3524 3459; GA 3476 3509 3468; GX 3468 3471 28023;
GX 28023 28025 28037; GX 3470 28037 28003; GX 27981 27982 3479; GA 3479 3522 3460; GX 3459 3460 28012; GA 3479 3511 3469;
GX 3462 28012 28032; GX 3469 3472 28000; GX 3458 3460 27996; GX 3465 28012 28017; GX 3466 28017 28022; GX 3474 28022 28027;
GX 3471 28027 28038; GX 28024 28038 28713; GX 28713 28705 17033; GX 17032 17033 17356; GX 28706 28713 17321; GX 27995 28017 27994;
GX 28023 28022 28001; GX 28031 28038 28712; GI 28712 17027; GX 17027 28704 17026; GX 17025 17026 17358; GX 28705 28712 17323;
GI 17323 17146; GX 3469 3475 28029; GX 28029 28025 27997; GX 27996 27997 28040; GX 3468 28029 28002; GX 28027 28002 3526;
GI 3526 28715; GX 28715 28707 17180; GX 28708 28715 17317; GI 17317 17157; GX 17157 28729 17154; GX 17157 17022 17164;
GX 28000 28001 28716; GX 28716 28715 17153; GX 28709 28716 17283; GI 17283 17169; GX 17169 28703 17174; GX 17169 28706 17168;
GX 17169 28705 17171; GX 28032 28003 3527; GI 3527 28710; GX 28703 28710 17327; GI 17327 17150; GI 28710 17021;
GX 17021 27664 17020; GX 17019 17020 17360; GX 3463 28032 28005; GX 28005 28006 28004; GX 27664 28004 17328; GI 17328 17175;
GA 3491 3517 3461; GX 3461 3473 28030; GX 28040 28030 3525; GI 3525 28714; GX 3464 28030 27993; GX 27993 27994 27992;
GI 27992 28041; GX 28041 28037 28711; GX 28704 28711 17325; GI 28711 17030; GX 17030 28703 17186; GX 28707 28714 17319;
GX 17319 28728 17158; GI 17325 17162; GX 17162 28725 17160; GI 28714 17156; GX 17156 28706 17182; GX 2427 2424 2948;
GX 28670 1180 2308; GX 2308 2309 18335; GX 28662 1172 2316; GX 2318 2316 18283; GX 2317 18283 18285; GX 18283 13533 13525;
GX 2319 13525 13524; GA 13529 13525 13518; GX 2316 2317 18267; GX 2314 18285 13519; GA 13534 13519 13515; GX 13515 18284 18290;
GX 28665 1169 2313; GX 2319 2313 18292; GX 2314 18292 13531; GX 18284 18292 13528; GX 18304 13528 13526; GX 2313 18285 13522;
GX 18292 18285 13521; GX 2315 2313 18286; GX 18286 18284 18252; GX 13518 18286 18291; GX 2318 13531 13527; GA 13533 13522 13512;
GX 13512 18285 18287; GX 18291 18287 18297; GX 18286 2314 18251; GX 2319 18251 13530; GA 13530 2319 13516; GX 18283 18252 13523;
GA 13532 13523 13510; GX 13510 13516 18295; GX 2314 18295 18310; GA 13526 13524 13517; GA 13527 13531 13514; GX 28550 1252 2428;
GX 2430 2428 2851; GX 2851 2948 2940; GX 2431 2940 2939; GX 17300 17280 17234; GX 27800 17234 28667; GX 28667 1183 2311;
GX 2311 18319 13459; GA 13459 2311 13445; GX 2311 2305 18360; GX 2306 18360 13460; GA 13528 13521 13513; GX 13510 13513 18289;
GX 18290 18289 18275; GX 18287 18275 13507; GI 17230 28668; GX 28668 1182 2310; GX 2310 2308 18351; GX 2310 2309 18372;
GX 2310 13460 13456; GX 2309 18351 18353; GX 18360 18353 13450; GX 18351 13462 13454; GX 2311 13454 13453; GX 2304 2310 13463;
GX 13462 18372 13458; GA 13458 13454 13447; GX 13447 18354 18359; GA 13456 13460 13443; GX 28697 28689 17213; GX 17212 17213 28565;
GX 28565 1269 2413; GX 2414 2413 17488; GX 2413 2411 14387; GX 2408 2413 14384; GX 17468 14387 14372; GA 14387 14372 14363;
GX 14385 17488 14381; GX 2305 18353 13451; GA 13462 13451 13441; GX 13441 18353 18355].
(** aes128_with_ks.txt:26504-26753 *)
Definition aes_enc_file_g106 : list gate := [
GX 18359 18355 18365; GX 2306 18353 13448; GA 13463 13448 13444; GX 17201 17202 28572; GX 28572 1278 2406; GX 2400 2406 14315;
GX 2306 2304 18352; GX 13444 18352 18358; GX 18352 13464 13449; GX 18354 18352 18320; GX 18351 18320 13452; GA 13461 13452 13439;
GX 13439 13445 18363; GX 2306 18363 18378; GA 13464 13449 13440; GX 13440 13441 18334; GX 18334 18335 18386; GX 18386 18358 18383;
GX 13443 18383 13437; GX 18352 18360 13457; GX 18372 13457 13455; GA 13455 13453 13446; GX 13440 13446 18364; GX 2304 18364 18379;
GX 18379 18365 13438; GX 18364 18363 18342; GX 18352 18342 13435; GA 13438 13437 13434; GX 13434 18378 18332; GX 18365 18332 13429;
GA 13457 13450 13442; GX 13439 13442 18357; GX 18358 18357 18343; GX 18355 18343 13436; GX 13434 13436 13433; GA 13435 13433 13432;
GX 13432 18365 18380; GX 18378 18380 13431; GA 13431 13457 13401; GA 13431 13450 13410; GX 13440 18357 18377; GX 13443 18377 18333;
GX 2310 18333 13430; GA 13429 13430 13428; GX 13428 18377 18331; GX 13428 13436 13427; GX 13428 13445 18330; GX 18330 13442 18325;
GA 13427 2311 13413; GX 13401 13413 18374; GX 13410 13413 18375; GA 13427 13459 13404; GX 13404 18374 18337; GX 13434 13428 13426;
GA 13436 13426 13425; GX 13425 13433 13423; GA 13431 13423 13422; GX 13425 13443 18362; GX 2310 18362 18370; GX 18370 18331 13424;
GA 13424 13455 13405; GX 13422 18380 18324; GX 18379 18324 13418; GA 13424 13453 13414; GX 13422 13446 18329; GX 18370 18329 18321;
GX 18352 18321 18328; GX 18325 18328 13420; GA 13420 13461 13398; GA 13418 13448 13412; GX 13422 13435 13421; GA 13421 13456 13402;
GA 13421 13460 13411; GX 18362 18383 13417; GA 13417 13454 13415; GX 13444 13432 18327; GX 18359 18327 18323; GX 2306 18323 18322;
GX 18321 18322 13416; GA 13416 13464 13399; GX 2304 18323 18326; GX 18325 18326 13419; GA 13419 13462 13400; GX 13398 13400 18340;
GX 13399 13400 18356; GX 13402 18356 18376; GX 13405 18356 18361; GA 13419 13451 13409; GX 13409 13415 18373; GX 13409 13412 18344;
GA 13416 13449 13408; GX 13408 18373 18346; GX 13408 13411 18367; GA 13420 13452 13407; GA 13417 13458 13406; GA 13418 13463 13403;
GX 13403 13407 18369; GX 18367 18369 18381; GX 13403 18376 18349; GX 13410 18381 18347; GX 18376 18347 13467; GI 13467 28300;
GX 28300 1310 30473; GX 18373 18369 18341; GX 18340 18341 18384; GX 18384 18374 13465; GI 13465 28304; GX 28304 1306 30469;
GX 3391 3403 28098; GX 3394 28098 28061; GX 28061 28062 28060; GI 28060 28109; GX 28109 28105 28690; GX 28690 17200 28573;
GX 28573 1277 2405; GX 2405 2403 14316; GX 2400 2405 14313; GX 28690 28683 17013; GX 2406 2405 17556; GX 28690 28697 17336;
GX 17199 17336 17197; GX 17336 28696 17190; GX 17341 17336 17253; GX 17190 17191 28549; GX 28549 1253 2429; GX 2430 2429 2830;
GX 2428 2429 2867; GX 2429 2851 2849; GX 2842 2849 2936; GX 28676 17253 28557; GX 28557 1261 2421; GX 2422 2421 17420;
GX 14456 17420 14452; GX 2948 2830 2944; GX 2420 2421 17383; GX 2416 2421 14455; GX 17197 17198 28574; GX 28574 1276 2404;
GX 2406 2404 17535; GX 2404 2405 17519; GX 2405 17535 17537; GX 2424 2429 2947; GA 14452 14448 14441; GX 14441 17402 17407;
GX 2421 17399 17401; GX 17408 17401 14444; GX 2417 17401 14445; GA 14456 14445 14435; GX 2421 2419 14458; GX 2429 2427 2950;
GX 28108 28098 3455; GI 3455 28693; GX 28693 17192 28576; GX 28693 17142 17208; GX 17207 17208 28569; GX 28569 1265 2409;
GX 2415 2409 17476; GX 17468 17476 14380; GX 17488 14380 14378; GX 2411 2409 17470; GX 17470 2410 17435; GX 2415 17435 14382;
GA 14382 2415 14368; GX 28693 28700 17330; GX 17335 17330 17217; GI 17330 17143; GX 17143 28678 17140; GX 17140 17141 28552;
GX 28679 17217 28560; GX 28560 1258 2418; GX 17402 2418 17367; GX 2418 17408 14454; GX 2422 14454 14450; GA 14450 14454 14437;
GX 2418 17401 14442; GA 14457 14442 14438; GX 2423 17367 14453; GX 2418 2416 17400; GX 17400 17408 14451; GA 14451 14444 14436;
GX 17400 14458 14443; GA 14458 14443 14434; GX 14434 14435 17382; GX 17382 17383 17434; GX 17402 17400 17368; GX 17399 17368 14446;
GA 14455 14446 14433; GX 14433 14436 17405; GX 14434 17405 17425; GX 17420 14451 14449; GA 14449 14447 14440; GX 14434 14440 17412;
GX 2416 17412 17427; GX 14438 17400 17406; GX 17406 17405 17391; GX 17434 17406 17431; GX 14437 17431 14431; GX 14437 17425 17381;
GA 14453 2423 14439; GX 14433 14439 17411; GX 2418 17411 17426; GX 17412 17411 17390; GX 17400 17390 14429; GX 2422 17381 14424;
GX 17331 17330 17189; GX 28694 17189 28577; GA 2944 2940 2933; GX 2425 2849 2937; GA 2948 2937 2927; GX 2927 2849 2847;
GX 2933 2848 2843; GX 2843 2847 2837; GX 14435 17401 17403; GX 17407 17403 17413; GX 17403 17391 14430; GX 17427 17413 14432;
GA 14432 14431 14428; GX 14428 17426 17380; GX 17413 17380 14423; GA 14423 14424 14422; GX 14422 14430 14421; GX 14422 14439 17378;
GX 17378 14436 17373; GA 14421 2423 14407; GA 14421 14453 14398; GX 14428 14422 14420; GA 14430 14420 14419; GX 14419 14437 17410;
GX 17410 17431 14411; GA 14411 14448 14409; GX 2422 17410 17418; GA 14411 14452 14400; GX 14428 14430 14427; GA 14429 14427 14426;
GX 14426 17413 17428; GX 17426 17428 14425; GA 14425 14451 14395; GX 14438 14426 17375; GX 17407 17375 17371; GX 2418 17371 17370;
GA 14425 14444 14404; GX 14404 14407 17423; GX 2416 17371 17374; GX 14419 14427 14417; GA 14425 14417 14416; GX 14416 14440 17377;
GX 17418 17377 17369; GX 17400 17369 17376; GX 17373 17376 14414; GA 14414 14446 14401].
(** aes128_with_ks.txt:26754-27003 *)
Definition aes_enc_file_g107 : list gate := [
GX 14416 17428 17372; GX 14416 14429 14415; GA 14415 14454 14405; GX 17427 17372 14412; GA 14412 14457 14397; GX 14397 14401 17417;
GX 17373 17374 14413; GA 14413 14456 14394; GA 14413 14445 14403; GX 14403 14409 17421; GX 17421 17417 17389; GX 17369 17370 14410;
GA 14410 14458 14393; GX 14393 14394 17404; GA 14414 14455 14392; GX 14392 14394 17388; GX 17388 17389 17432; GA 14410 14443 14402;
GX 14402 14405 17415; GX 17415 17417 17429; GX 14402 17421 17394; GX 14404 17429 17395; GX 14422 17425 17379; GX 17418 17379 14418;
GA 14418 14449 14399; GA 14418 14447 14408; GX 14399 17404 17409; GX 14400 17409 17414; GX 17415 17414 17393; GX 14408 17414 17419;
GX 14405 17419 17430; GX 17423 17430 28190; GX 28190 1324 30519; GX 17419 17394 14460; GI 14460 28193; GX 28193 1321 30516;
GX 14395 14407 17422; GX 14398 17422 17385; GX 17432 17422 14459; GI 14459 28192; GX 28192 1322 30517; GA 14412 14442 14406;
GX 14406 14409 17416; GX 17416 17430 28191; GX 28191 1323 30518; GX 14403 14406 17392; GX 17392 17393 28194; GI 17416 17387;
GX 17387 17409 17386; GX 17385 17386 17384; GI 17384 17433; GX 17433 17429 28189; GX 17423 17387 17398; GX 28189 1325 30520;
GX 28194 1320 30515; GA 14415 14450 14396; GX 14396 17404 17424; GX 17424 17395 14461; GI 14461 28188; GX 28188 1326 30521;
GX 14397 17424 17397; GX 17397 17398 17396; GI 17396 14462; GI 14462 28187; GX 28187 1327 30522; GX 17012 17013 17363;
GX 17363 17337 28566; GX 28566 1268 2412; GX 2414 2412 17467; GX 2413 17467 17469; GX 2409 17469 14374; GA 14385 14374 14364;
GX 14363 14364 17450; GX 17476 17469 14373; GA 14380 14373 14365; GX 14364 17469 17471; GX 2410 17469 14371; GA 14386 14371 14367;
GX 14367 17468 17474; GX 2412 2413 17451; GX 17450 17451 17502; GX 17502 17474 17499; GX 2410 17476 14383; GX 2414 14383 14379;
GA 14379 14383 14366; GX 14366 17499 14360; GX 17470 17468 17436; GX 17467 17436 14375; GA 14384 14375 14362; GX 14362 14365 17473;
GX 14363 17473 17493; GX 14366 17493 17449; GX 14362 14368 17479; GX 2410 17479 17494; GX 2414 17449 14353; GX 28552 1250 2426;
GX 2426 2849 2934; GA 2949 2934 2930; GX 2848 2426 2883; GX 2426 2424 2850; GX 2930 2850 2844; GX 2431 2883 2945;
GA 2945 2431 2931; GX 2426 2842 2946; GX 2850 2842 2943; GA 2943 2936 2928; GX 2830 2943 2941; GA 2941 2939 2932;
GX 2848 2850 2882; GX 2851 2882 2938; GA 2947 2938 2925; GX 2925 2928 2845; GX 2844 2845 2859; GX 2847 2859 2922;
GX 2850 2950 2935; GA 2950 2935 2926; GX 2926 2927 2868; GX 2926 2845 2825; GX 2926 2932 2838; GX 2424 2838 2823;
GX 2868 2867 2816; GX 2816 2844 2819; GX 2823 2837 2924; GX 2925 2931 2839; GX 2838 2839 2860; GX 2426 2839 2824;
GX 2850 2860 2921; GX 2430 2946 2942; GA 2942 2946 2929; GX 2929 2819 2923; GX 2929 2825 2869; GX 2430 2869 2916;
GA 2924 2923 2920; GX 2920 2824 2870; GX 2837 2870 2915; GA 2915 2916 2914; GX 2920 2914 2912; GX 2914 2931 2872;
GX 2914 2825 2871; GX 2872 2928 2877; GX 2920 2922 2919; GA 2921 2919 2918; GX 2914 2922 2913; GA 2913 2431 2899;
GA 2913 2945 2890; GX 2918 2837 2822; GX 2824 2822 2917; GA 2917 2936 2896; GA 2917 2943 2887; GX 2887 2899 2828;
GX 2896 2899 2827; GX 2930 2918 2875; GX 2843 2875 2879; GX 2426 2879 2880; GX 2424 2879 2876; GX 2877 2876 2905;
GA 2905 2948 2886; GA 2905 2937 2895; GX 2890 2828 2865; GA 2922 2912 2911; GX 2911 2929 2840; GX 2430 2840 2832;
GX 2832 2871 2910; GX 2840 2819 2903; GA 2910 2941 2891; GA 2910 2939 2900; GX 2911 2919 2909; GA 2917 2909 2908;
GX 2908 2932 2873; GX 2832 2873 2881; GX 2881 2880 2902; GA 2902 2935 2894; GA 2902 2950 2885; GX 2885 2886 2846;
GX 2850 2881 2874; GX 2877 2874 2906; GA 2906 2938 2893; GA 2906 2947 2884; GX 2884 2886 2862; GX 2908 2822 2878;
GA 2903 2944 2892; GA 2903 2940 2901; GX 2895 2901 2829; GX 2894 2829 2856; GX 2891 2846 2841; GX 2823 2878 2904;
GA 2904 2949 2889; GX 2889 2893 2833; GA 2904 2934 2898; GX 2895 2898 2858; GX 2898 2901 2834; GI 2834 2863;
GX 2827 2863 2852; GX 2863 2841 2864; GX 2865 2864 2866; GI 2866 2817; GX 2908 2921 2907; GA 2907 2942 2888;
GX 2888 2846 2826; GA 2907 2946 2897; GX 2894 2897 2835; GX 2835 2833 2821; GX 2896 2821 2855; GX 2826 2855 2953;
GI 2953 28180; GX 28180 1286 30497; GX 2829 2833 2861; GX 2862 2861 2818; GX 2818 2828 2951; GI 2951 28184;
GX 2892 2841 2836; GX 2835 2836 2857; GX 2858 2857 28186; GX 28186 1280 30491; GX 2900 2836 2831; GX 2897 2831 2820;
GX 2831 2856 2952; GI 2952 28185; GX 28185 1281 30492; GX 2834 2820 28183; GX 28183 1283 30494; GX 28184 1282 30493;
GX 2827 2820 28182; GX 28182 1284 30495; GX 28577 1273 2401; GX 2407 2401 17544; GX 17544 17537 14302; GX 2401 17537 14303;
GX 2403 2401 17538; GX 2889 2826 2853; GX 2853 2852 2854; GI 2854 2954; GI 2954 28179; GX 28179 1287 30498;
GX 2817 2821 28181; GX 28181 1285 30496; GX 17474 17473 17459; GX 28576 1274 2402; GX 2402 2400 17536; GX 17536 17544 14309;
GX 2402 17537 14300; GX 17538 2402 17503; GX 2407 17503 14311; GA 14315 14300 14296; GX 17556 14309 14307; GX 17538 17536 17504;
GA 14309 14302 14294; GX 17535 17504 14304; GX 17536 14316 14301; GA 14316 14301 14292].
(** aes128_with_ks.txt:27004-27253 *)
Definition aes_enc_file_g108 : list gate := [
GA 14313 14304 14291; GX 14291 14294 17541; GA 14311 2407 14297; GX 14291 14297 17547; GX 2402 17547 17562; GX 14292 17541 17561;
GX 2402 17544 14312; GX 2406 14312 14308; GA 14308 14312 14295; GX 14295 17561 17517; GX 2406 17517 14282; GX 17467 14385 14377;
GA 14381 14377 14370; GX 14370 17470 17475; GX 17475 17471 17481; GX 13406 18361 18366; GX 13414 18366 18371; GX 18371 18346 13466;
GI 13466 28305; GX 28305 1305 30468; GX 18367 18366 18345; GX 18344 18345 28306; GX 28306 1304 30467; GX 13411 18371 18382;
GX 18375 18382 28302; GX 28302 1308 30471; GX 14296 17536 17542; GX 17542 17541 17527; GX 13412 13415 18368; GX 18368 18382 28303;
GX 28303 1307 30470; GI 18368 18339; GX 18339 18361 18338; GX 18337 18338 18336; GI 18336 18385; GX 18385 18381 28301;
GX 28301 1309 30472; GX 18375 18339 18350; GX 18349 18350 18348; GI 18348 13468; GI 13468 28299; GX 28299 1311 30474;
GA 13535 13520 13511; GX 13511 18289 18309; GX 13511 13512 18266; GX 18266 18267 18318; GX 18318 18290 18315; GX 13514 18315 13508;
GX 13511 13517 18296; GX 18296 18295 18274; GX 18284 18274 13506; GX 2312 18296 18311; GX 18311 18297 13509; GA 13509 13508 13505;
GX 13505 13507 13504; GA 13506 13504 13503; GX 13515 13503 18259; GX 18291 18259 18255; GX 13503 18297 18312; GX 18310 18312 13502;
GA 13502 13521 13481; GX 2312 18255 18258; GX 13514 18309 18265; GX 2318 18265 13501; GX 2314 18255 18254; GX 13505 18310 18264;
GX 18297 18264 13500; GA 13500 13501 13499; GX 13499 13516 18262; GX 13499 13507 13498; GX 13505 13499 13497; GA 13498 2319 13484;
GX 13481 13484 18307; GA 13498 13530 13475; GA 13507 13497 13496; GX 13496 13504 13494; GX 13496 13514 18294; GX 18294 18315 13488;
GA 13502 13494 13493; GX 13493 13506 13492; GA 13492 13527 13473; GA 13492 13531 13482; GX 13493 18312 18256; GX 18311 18256 13489;
GA 13489 13534 13474; GX 2318 18294 18302; GX 18262 13513 18257; GX 18257 18258 13490; GA 13490 13522 13480; GA 13490 13533 13471;
GX 13499 18309 18263; GX 18302 18263 13495; GA 13495 13524 13485; GA 13495 13526 13476; GX 13493 13517 18261; GX 18302 18261 18253;
GX 18284 18253 18260; GX 18257 18260 13491; GA 13491 13523 13478; GX 13474 13478 18301; GX 18253 18254 13487; GA 13487 13520 13479;
GX 13479 13482 18299; GX 18299 18301 18313; GX 13481 18313 18279; GA 13487 13535 13470; GX 13470 13471 18288; GX 13473 18288 18308;
GX 18308 18279 13538; GX 13476 18288 18293; GX 13474 18308 18281; GI 13538 28292; GX 28292 1398 30577; GA 13491 13532 13469;
GX 13469 13471 18272; GX 13656 18179 13650; GA 13651 13650 13647; GX 13647 18174 18128; GX 18161 18128 13642; GA 13642 13643 13641;
GX 13641 13658 18126; GX 18126 13655 18121; GX 13647 13641 13639; GA 13649 13639 13638; GX 13638 13656 18158; GX 2334 18158 18166;
GX 13647 13649 13646; GA 13648 13646 13645; GX 13645 18161 18176; GX 18174 18176 13644; GA 13644 13663 13623; GA 13644 13670 13614;
GX 13638 13646 13636; GA 13644 13636 13635; GX 13635 18176 18120; GX 18175 18120 13631; GA 13631 13676 13616; GA 13631 13661 13625;
GX 13635 13659 18125; GX 18166 18125 18117; GX 13635 13648 13634; GA 13634 13673 13624; GA 13634 13669 13615; GX 18158 18179 13630;
GA 13630 13671 13619; GA 13630 13667 13628; GX 13625 13628 18164; GI 18164 18135; GX 13641 13649 13640; GA 13640 2335 13626;
GX 13623 13626 18171; GX 18171 18135 18146; GA 13640 13672 13617; GX 13641 18173 18127; GX 13657 13645 18123; GX 18155 18123 18119;
GX 2330 18119 18118; GX 18117 18118 13629; GA 13629 13662 13621; GA 13629 13677 13612; GX 13621 13624 18163; GX 2328 18119 18122;
GX 18121 18122 13632; GA 13632 13675 13613; GX 13612 13613 18152; GX 13615 18152 18172; GX 13616 18172 18145; GX 18145 18146 18144;
GA 13632 13664 13622; GX 13622 13628 18169; GI 18144 13681; GX 13622 13625 18140; GI 13681 28275; GX 28275 1319 30530;
GX 13621 18169 18142; GX 18166 18127 13637; GA 13637 13666 13627; GA 13637 13668 13618; GX 13618 18152 18157; GX 13619 18157 18162;
GX 13627 18162 18167; GX 13624 18167 18178; GX 18171 18178 28278; GX 28278 1316 30527; GX 18167 18142 13679; GI 13679 28281;
GX 28281 1313 30524; GX 18163 18162 18141; GX 18140 18141 28282; GX 18135 18157 18134; GX 18164 18178 28279; GX 28282 1312 30523;
GX 18148 18117 18124; GX 18121 18124 13633; GA 13633 13665 13620; GA 13633 13674 13611; GX 13616 13620 18165; GX 18169 18165 18137;
GX 18163 18165 18177; GX 13623 18177 18143; GX 18172 18143 13680; GI 13680 28276; GX 13611 13613 18136; GX 18136 18137 18180;
GX 28276 1318 30529; GX 28279 1315 30526; GX 13614 13626 18170; GX 13617 18170 18133; GX 18133 18134 18132; GI 18132 18181;
GX 18181 18177 28277; GX 28277 1317 30528; GX 18180 18170 13678; GI 13678 28280; GX 28280 1314 30525; GA 13488 13525 13486;
GX 13480 13486 18305; GX 18305 18301 18273; GX 18272 18273 18316; GX 13479 18305 18278; GA 13489 13519 13483; GX 13480 13483 18276;
GX 13483 13486 18300; GI 18300 18271; GX 18307 18271 18282; GX 18271 18293 18270; GX 18281 18282 18280; GI 18280 13539;
GI 13539 28291; GX 28291 1399 30578; GA 13488 13529 13477; GX 13477 18293 18298; GX 18299 18298 18277; GX 18276 18277 28298;
GX 28298 1392 30571; GX 13485 18298 18303; GX 13482 18303 18314; GX 18300 18314 28295; GX 18307 18314 28294; GX 18303 18278 13537;
GI 13537 28297; GX 28297 1393 30572; GX 28294 1396 30575; GX 28295 1395 30574; GA 13502 13528 13472; GX 13472 13484 18306;
GX 18316 18306 13536; GI 13536 28296; GX 28296 1394 30573; GX 13475 18306 18269].
(** aes128_with_ks.txt:27254-27503 *)
Definition aes_enc_file_g109 : list gate := [
GX 18269 18270 18268; GI 18268 18317; GX 18317 18313 28293; GX 28293 1397 30576; GX 13567 13575 13565; GA 13573 13565 13564;
GX 13564 18244 18188; GX 13564 13588 18193; GX 18234 18193 18185; GX 18216 18185 18192; GX 18189 18192 13562; GA 13562 13603 13540;
GA 13562 13594 13549; GX 18243 18188 13560; GA 13560 13590 13554; GA 13560 13605 13545; GX 13554 13557 18232; GX 13545 13549 18233;
GX 13551 13554 18208; GI 18232 18203; GX 18237 18233 18205; GX 13540 13542 18204; GX 18204 18205 18248; GX 18248 18238 13607;
GX 18239 18203 18214; GX 18185 18186 13558; GA 13558 13606 13541; GA 13558 13591 13550; GX 13541 13542 18220; GX 13547 18220 18225;
GX 13548 18225 18230; GX 13556 18230 18235; GX 18203 18225 18202; GX 13550 18237 18210; GX 18235 18210 13608; GI 13608 28289;
GX 28289 1353 30548; GX 13564 13577 13563; GA 13563 13602 13553; GX 13550 13553 18231; GX 18231 18233 18245; GX 13552 18245 18211;
GX 18231 18230 18209; GX 18208 18209 28290; GX 28290 1352 30547; GX 13553 18235 18246; GX 18239 18246 28286; GX 28286 1356 30551;
GA 13563 13598 13544; GX 13544 18220 18240; GX 18240 18211 13609; GX 13545 18240 18213; GI 13609 28284; GX 28284 1358 30553;
GX 18213 18214 18212; GX 18201 18202 18200; GI 18212 13610; GI 13610 28283; GX 28283 1359 30554; GI 18200 18249;
GX 18249 18245 28285; GX 28285 1357 30552; GI 13607 28288; GX 28288 1354 30549; GX 18232 18246 28287; GX 28287 1355 30550;
GX 2403 2400 14314; GA 14314 14303 14293; GX 14293 17537 17539; GX 17539 17527 14288; GX 14314 17556 14310; GX 14292 14293 17518;
GX 17535 14314 14306; GA 14310 14306 14299; GX 2407 14306 14305; GA 14307 14305 14298; GX 17518 17519 17570; GX 17570 17542 17567;
GX 14295 17567 14289; GX 14299 17538 17543; GX 14292 14298 17548; GX 17548 17547 17526; GX 17536 17526 14287; GX 2400 17548 17563;
GX 17543 17539 17549; GX 17563 17549 14290; GA 14290 14289 14286; GX 14286 17562 17516; GX 17549 17516 14281; GA 14281 14282 14280;
GX 14286 14280 14278; GX 14280 14288 14279; GX 14280 14297 17514; GA 14288 14278 14277; GA 14279 14311 14256; GX 17514 14294 17509;
GA 14279 2407 14265; GX 14280 17561 17515; GX 14277 14295 17546; GX 17546 17567 14269; GX 2406 17546 17554; GA 14269 14306 14267;
GX 17554 17515 14276; GA 14276 14305 14266; GA 14269 14310 14258; GA 14276 14307 14257; GX 2415 14377 14376; GA 14378 14376 14369;
GX 14363 14369 17480; GX 2408 17480 17495; GX 17495 17481 14361; GA 14361 14360 14357; GX 14357 17494 17448; GX 17481 17448 14352;
GA 14352 14353 14351; GX 14351 17493 17447; GX 14357 14351 14349; GX 14351 14368 17446; GX 17446 14365 17441; GX 17480 17479 17458;
GX 17468 17458 14358; GX 14286 14288 14285; GX 14277 14285 14275; GA 14287 14285 14284; GX 14284 17549 17564; GX 17562 17564 14283;
GA 14283 14275 14274; GX 14274 17564 17508; GX 14274 14298 17513; GX 17554 17513 17505; GA 14283 14309 14253; GX 14253 14265 17558;
GX 14256 17558 17521; GX 14274 14287 14273; GA 14273 14312 14263; GA 14273 14308 14254; GX 14296 14284 17511; GX 17563 17508 14270;
GX 17543 17511 17507; GX 2402 17507 17506; GX 17505 17506 14268; GA 14268 14316 14251; GX 2400 17507 17510; GX 17509 17510 14271;
GA 14271 14303 14261; GX 14261 14267 17557; GA 14270 14315 14255; GA 14270 14300 14264; GX 14261 14264 17528; GX 14264 14267 17552;
GI 17552 17523; GA 14283 14302 14262; GX 14262 14265 17559; GX 17559 17523 17534; GA 14271 14314 14252; GX 14251 14252 17540;
GX 14257 17540 17545; GX 14258 17545 17550; GX 14266 17550 17555; GX 17523 17545 17522; GX 17521 17522 17520; GI 17520 17569;
GX 14254 17540 17560; GX 14255 17560 17533; GA 14268 14301 14260; GX 14260 14263 17551; GX 14260 17557 17530; GX 17555 17530 14318;
GX 17551 17550 17529; GX 17528 17529 28210; GX 28210 1400 30563; GX 17533 17534 17532; GI 14318 28209; GX 28209 1401 30564;
GX 17536 17505 17512; GX 17509 17512 14272; GA 14272 14304 14259; GX 14255 14259 17553; GX 17551 17553 17565; GX 14262 17565 17531;
GX 17560 17531 14319; GX 17557 17553 17525; GX 17569 17565 28205; GX 28205 1405 30568; GI 14319 28204; GX 28204 1406 30569;
GA 14272 14313 14250; GX 14250 14252 17524; GX 17524 17525 17568; GX 17568 17558 14317; GI 14317 28208; GX 28208 1402 30565;
GX 14263 17555 17566; GX 17552 17566 28207; GX 28207 1403 30566; GX 17559 17566 28206; GX 28206 1404 30567; GX 17471 17459 14359;
GX 14357 14359 14356; GA 14359 14349 14348; GX 14348 14356 14346; GX 14348 14366 17478; GX 2414 17478 17486; GX 14351 14359 14350;
GA 14350 2415 14336; GA 14350 14382 14327; GA 14358 14356 14355; GX 14355 17481 17496; GX 17494 17496 14354; GA 14354 14373 14333;
GA 14354 14380 14324; GA 14354 14346 14345; GX 14345 17496 17440; GX 14345 14369 17445; GX 14345 14358 14344; GA 14344 14379 14325;
GA 14344 14383 14334; GX 14324 14336 17490; GX 14327 17490 17453; GX 14367 14355 17443; GX 17475 17443 17439; GX 2408 17439 17442;
GX 17486 17445 17437; GX 17468 17437 17444; GX 17441 17442 14342; GA 14342 14374 14332; GA 14342 14385 14323; GX 17441 17444 14343;
GA 14343 14375 14330; GA 14343 14384 14321; GX 14321 14323 17456; GX 14333 14336 17491; GX 17486 17447 14347; GA 14347 14378 14328;
GA 14347 14376 14337; GX 17478 17499 14340; GA 14340 14381 14329; GA 14340 14377 14338; GX 14332 14338 17489; GX 2410 17439 17438;
GX 17437 17438 14339; GA 14339 14372 14331; GA 14339 14387 14322; GX 14331 17489 17462; GX 14331 14334 17483; GX 14322 14323 17472;
GX 14325 17472 17492; GX 14328 17472 17477; GX 14329 17477 17482; GX 14337 17482 17487].
(** aes128_with_ks.txt:27504-27753 *)
Definition aes_enc_file_g110 : list gate := [
GX 17487 17462 14389; GI 14389 28201; GX 14334 17487 17498; GX 17491 17498 28198; GX 17495 17440 14341; GA 14341 14371 14335;
GX 14332 14335 17460; GA 14341 14386 14326; GX 14326 17492 17465; GX 14335 14338 17484; GI 17484 17455; GX 17455 17477 17454;
GX 17491 17455 17466; GX 17465 17466 17464; GX 17484 17498 28199; GI 17464 14391; GI 14391 28195; GX 17453 17454 17452;
GI 17452 17501; GX 28198 1364 30543; GX 28199 1363 30542; GX 28195 1367 30546; GX 17483 17482 17461; GX 17460 17461 28202;
GX 28202 1360 30539; GX 28201 1361 30540; GX 14326 14330 17485; GX 17483 17485 17497; GX 17501 17497 28197; GX 14333 17497 17463;
GX 17489 17485 17457; GX 17456 17457 17500; GX 17500 17490 14388; GI 14388 28200; GX 17492 17463 14390; GI 14390 28196;
GX 28196 1366 30545; GX 28200 1362 30541; GX 28197 1365 30544; GI 17532 14320; GI 14320 28203; GX 28203 1407 30570;
GX 4322 4335 4321; GA 4321 4356 4302; GX 4302 27196 27216; GA 4321 4360 4311; GX 4308 4311 27207; GX 4311 27211 27222;
GX 27215 27222 28740; GX 27207 27206 27185; GX 27184 27185 28744; GX 28737 28744 17281; GX 28744 28743 17092; GX 17091 17092 28634;
GI 17281 17110; GX 17110 28731 17115; GX 17312 17281 17117; GX 17110 28733 17112; GX 17110 28734 17109; GX 28744 28751 17273;
GI 17273 17048; GX 17048 28754 17045; GX 17273 28758 17118; GX 17118 17119 28618; GX 28618 1184 2360; GX 17301 17273 17075;
GX 28737 17075 28642; GX 28642 1208 2336; GX 17273 28752 17040; GX 2362 2360 17876; GX 17048 28755 17051; GX 28634 1200 2344;
GI 28740 17044; GX 17044 28732 17043; GX 17042 17043 17352; GX 28733 28740 17309; GI 17309 17084; GX 17084 17308 17082;
GX 17084 17304 17108; GX 17108 17109 28623; GX 17082 17083 28638; GX 28747 17044 17052; GX 17051 17052 17349; GX 27936 17117 28619;
GX 28619 1199 2359; GX 2338 2336 18080; GX 28638 1212 2340; GX 4303 27216 27189; GX 27189 27190 27188; GX 27936 27188 17314;
GX 27188 17132 28611; GX 28611 1191 2367; GX 17314 17282 17090; GX 27528 17090 28635; GX 28635 1215 2343; GX 2367 2361 17884;
GX 2362 17884 13957; GX 17876 17884 13954; GX 27528 27188 17041; GX 17040 17041 17353; GX 17314 17273 17102; GX 27868 17102 28627;
GX 28627 1207 2351; GX 2351 2345 18020; GX 2343 2337 18088; GX 2338 18088 13744; GX 18080 18088 13741; GI 17314 17116;
GX 27207 27209 27221; GX 4310 27221 27187; GX 27216 27187 4367; GI 4367 28738; GX 28731 28738 17313; GX 17313 17308 17113;
GI 28738 17038; GX 28745 17038 17100; GI 17313 17089; GX 17089 17312 17087; GX 27225 27221 28739; GI 28739 17047;
GX 17047 28731 17131; GX 17130 17131 17129; GI 17129 28613; GX 28746 17047 17046; GX 17045 17046 17351; GX 17351 17309 28630;
GX 28630 1204 2348; GX 28732 28739 17311; GX 17311 17310 17085; GI 17311 17101; GX 28746 17085 28637; GX 17101 17306 17111;
GX 28637 1213 2341; GX 2336 2341 13745; GX 2340 2341 18063; GX 28613 1189 2365; GX 2360 2365 13958; GX 17038 27936 17037;
GX 17353 17313 28628; GX 28628 1206 2350; GX 2344 2350 13818; GX 2350 2348 18011; GX 17036 17037 17354; GX 17354 17310 28612;
GX 28612 1190 2366; GX 2366 13957 13953; GA 13953 13957 13940; GX 2366 2365 17896; GX 17896 13954 13952; GX 2360 2366 13960;
GX 17087 17088 28636; GX 28636 1214 2342; GX 2342 2341 18100; GX 2342 2340 18079; GX 2341 18079 18081; GX 2338 18081 13732;
GX 18088 18081 13734; GA 13741 13734 13726; GX 2336 2342 13747; GA 13747 13732 13728; GX 13728 18080 18086; GX 2337 18081 13735;
GX 2342 13744 13740; GX 18100 13741 13739; GX 28623 1195 2355; GX 17101 28753 17099; GX 17099 17100 28629; GX 28629 1205 2349;
GX 2349 18011 18013; GX 2345 18013 13806; GX 18020 18013 13805; GX 2350 2349 18032; GX 2344 2349 13816; GX 27208 27222 28741;
GX 28734 28741 17307; GX 17307 17302 17107; GX 17349 17307 28631; GX 17307 17306 17079; GX 17079 17080 17078; GI 17078 28639;
GX 28639 1211 2339; GX 2341 2339 13748; GX 28631 1203 2347; GX 2347 2345 18014; GX 2349 2347 13819; GX 2347 2344 13817;
GA 13817 13806 13796; GX 13817 18032 13813; GX 28735 17107 28624; GX 28624 1194 2354; GX 2354 2352 17944; GX 2339 2337 18082;
GX 18082 2338 18047; GX 18082 18080 18048; GX 13796 18013 18015; GX 28741 28733 17050; GX 2339 2336 13746; GX 18079 13746 13738;
GX 13746 18100 13742; GX 2343 13738 13737; GA 13742 13738 13731; GX 13731 18082 18087; GX 18079 18048 13736; GA 13739 13737 13730;
GX 18080 13748 13733; GA 13748 13733 13724; GX 13724 13730 18092; GX 2336 18092 18107; GX 17049 17050 17350; GX 17350 17304 28615;
GX 28615 1187 2363; GX 2363 2361 17878; GX 17878 2362 17843; GX 2367 17843 13956; GX 17878 17876 17844; GX 2363 2360 13959;
GX 13959 17896 13955; GX 2365 2363 13961; GX 17876 13961 13946; GA 13961 13946 13937; GX 28748 28741 17098; GX 17097 17098 28632;
GX 28632 1202 2346; GX 18014 2346 17979; GX 2351 17979 13814; GA 13814 2351 13800; GX 2346 18020 13815; GX 2346 2344 18012;
GX 18012 18020 13812; GX 18032 13812 13810; GA 13812 13805 13797; GX 18014 18012 17980; GX 18011 17980 13807; GA 13816 13807 13794;
GX 13794 13800 18023; GX 2346 18023 18038; GX 2350 13815 13811; GA 13811 13815 13798; GX 2346 18013 13803; GA 13818 13803 13799;
GX 13799 18012 18018; GX 2343 18047 13743; GA 13743 2343 13729; GX 17352 17306 28614; GX 28614 1188 2364; GX 2364 2365 17859;
GX 2366 2364 17875; GX 17875 17844 13949; GA 13958 13949 13936; GX 17875 13959 13951].
(** aes128_with_ks.txt:27754-28003 *)
Definition aes_enc_file_g111 : list gate := [
GX 2367 13951 13950; GA 13952 13950 13943; GX 13937 13943 17888; GX 2360 17888 17903; GA 13955 13951 13944; GX 13944 17878 17883;
GX 2355 2353 17946; GX 17946 2354 17911; GX 2359 17911 13885; GX 17946 17944 17912; GA 13740 13744 13727; GX 2359 2353 17952;
GX 17944 17952 13883; GX 2354 17952 13886; GA 13746 13735 13725; GX 13724 13725 18062; GX 13725 18081 18083; GX 18087 18083 18093;
GX 18107 18093 13722; GX 18062 18063 18114; GX 18012 13819 13804; GA 13819 13804 13795; GX 13795 13796 17994; GX 2355 2352 13888;
GX 13794 13797 18017; GX 18018 18017 18003; GX 18015 18003 13791; GX 13795 18017 18037; GX 13798 18037 17993; GX 2350 17993 13785;
GA 13745 13736 13723; GX 13723 13726 18085; GX 13724 18085 18105; GX 13723 13729 18091; GX 2338 18091 18106; GX 18092 18091 18070;
GX 18086 18085 18071; GX 18083 18071 13720; GX 13727 18105 18061; GX 18080 18070 13719; GX 2342 18061 13714; GX 2348 2349 17995;
GX 17994 17995 18046; GX 18046 18018 18043; GX 13798 18043 13792; GX 17116 17310 17114; GX 17114 17115 28620; GX 28620 1198 2358;
GX 2352 2358 13889; GX 2358 13886 13882; GA 13882 13886 13869; GX 28732 17113 28621; GX 28621 1197 2357; GX 2358 2357 17964;
GX 13888 17964 13884; GX 2357 2355 13890; GX 17944 13890 13875; GA 13890 13875 13866; GX 17964 13883 13881; GX 2352 2357 13887;
GX 2365 17875 17877; GX 17884 17877 13947; GX 2361 17877 13948; GA 13959 13948 13938; GX 13937 13938 17858; GX 17858 17859 17910;
GX 2362 17877 13945; GA 13960 13945 13941; GX 13941 17876 17882; GX 17910 17882 17907; GX 13940 17907 13934; GA 13954 13947 13939;
GX 13936 13939 17881; GX 13937 17881 17901; GX 17882 17881 17867; GX 13940 17901 17857; GX 2366 17857 13927; GX 13938 17877 17879;
GX 17883 17879 17889; GX 17879 17867 13933; GX 17903 17889 13935; GA 13935 13934 13931; GX 13931 13933 13930; GX 18114 18086 18111;
GX 13727 18111 13721; GA 13722 13721 13718; GX 13718 18106 18060; GX 18093 18060 13713; GX 13718 13720 13717; GA 13713 13714 13712;
GX 13712 13720 13711; GX 13712 13729 18058; GX 18058 13726 18053; GA 13711 2343 13697; GX 13718 13712 13710; GX 13712 18105 18059;
GA 13719 13717 13716; GX 13728 13716 18055; GX 13716 18093 18108; GX 18087 18055 18051; GX 2338 18051 18050; GX 2336 18051 18054;
GX 18053 18054 13703; GA 13703 13735 13693; GA 13703 13746 13684; GA 13720 13710 13709; GX 13709 13717 13707; GX 13709 13727 18090;
GX 2342 18090 18098; GX 18098 18059 13708; GA 13708 13739 13689; GX 18090 18111 13701; GA 13701 13738 13699; GX 13693 13699 18101;
GA 13701 13742 13690; GA 13708 13737 13698; GA 13711 13743 13688; GX 18106 18108 13715; GA 13715 13741 13685; GX 13685 13697 18102;
GX 13688 18102 18065; GA 13715 13707 13706; GX 13706 13719 13705; GX 13706 18108 18052; GX 18107 18052 13702; GA 13702 13732 13696;
GA 13702 13747 13687; GX 13706 13730 18057; GX 13693 13696 18072; GX 18098 18057 18049; GX 18049 18050 13700; GA 13700 13733 13692;
GX 13692 18101 18074; GX 18080 18049 18056; GX 18053 18056 13704; GX 13696 13699 18096; GI 18096 18067; GA 13704 13736 13691;
GX 13687 13691 18097; GX 18101 18097 18069; GA 13704 13745 13682; GX 13682 13684 18068; GX 18068 18069 18112; GX 18112 18102 13749;
GI 13749 28272; GX 28272 1338 30501; GA 13705 13744 13695; GX 13692 13695 18095; GX 18095 18097 18109; GA 13715 13734 13694;
GX 13694 18109 18075; GX 13694 13697 18103; GX 18103 18067 18078; GA 13700 13748 13683; GX 13683 13684 18084; GX 13689 18084 18089;
GX 18067 18089 18066; GX 18065 18066 18064; GI 18064 18113; GX 18113 18109 28269; GX 28269 1341 30504; GX 13690 18089 18094;
GX 13698 18094 18099; GX 18099 18074 13750; GI 13750 28273; GX 18095 18094 18073; GX 13695 18099 18110; GX 18096 18110 28271;
GX 28271 1339 30502; GX 18103 18110 28270; GX 28270 1340 30503; GX 28273 1337 30500; GX 18072 18073 28274; GX 28274 1336 30499;
GX 18011 13817 13809; GX 2351 13809 13808; GA 13810 13808 13801; GX 13795 13801 18024; GX 2344 18024 18039; GX 18024 18023 18002;
GX 18012 18002 13790; GA 13813 13809 13802; GX 13802 18014 18019; GX 18019 18015 18025; GX 18039 18025 13793; GA 13793 13792 13789;
GX 13789 18038 17992; GX 13789 13791 13788; GA 13790 13788 13787; GX 13787 18025 18040; GX 18038 18040 13786; GA 13786 13805 13765;
GX 18025 17992 13784; GA 13784 13785 13783; GX 13799 13787 17987; GX 18019 17987 17983; GA 13786 13812 13756; GX 13789 13783 13781;
GX 13783 13791 13782; GA 13782 2351 13768; GA 13782 13814 13759; GX 13756 13768 18034; GX 13759 18034 17997; GX 13765 13768 18035;
GA 13791 13781 13780; GX 13780 13798 18022; GX 2350 18022 18030; GX 18022 18043 13772; GX 2344 17983 17986; GX 13780 13788 13778;
GA 13786 13778 13777; GX 13777 13801 17989; GX 13777 18040 17984; GX 18039 17984 13773; GA 13773 13818 13758; GA 13773 13803 13767;
GX 13783 18037 17991; GX 18030 17991 13779; GA 13779 13808 13769; GX 13783 13800 17990; GX 17990 13797 17985; GX 17985 17986 13774;
GA 13774 13817 13755; GA 13774 13806 13764; GX 13764 13767 18004; GX 18030 17989 17981; GX 18012 17981 17988; GX 17985 17988 13775;
GA 13775 13816 13753; GX 13753 13755 18000; GA 13775 13807 13762; GX 13758 13762 18029; GX 2346 17983 17982; GX 17981 17982 13771;
GA 13771 13804 13763; GA 13771 13819 13754; GX 13754 13755 18016; GA 13779 13810 13760; GX 13760 18016 18021; GX 13777 13790 13776;
GA 13776 13811 13757; GX 13757 18016 18036; GA 13776 13815 13766; GX 13763 13766 18027; GX 18027 18029 18041; GX 13765 18041 18007;
GX 18036 18007 13822; GI 13822 28260; GX 28260 1302 30481; GX 13758 18036 18009].
(** aes128_with_ks.txt:28004-28253 *)
Definition aes_enc_file_g112 : list gate := [
GA 13772 13809 13770; GX 13767 13770 18028; GI 18028 17999; GX 18035 17999 18010; GX 17999 18021 17998; GX 13764 13770 18033;
GX 18033 18029 18001; GX 18000 18001 18044; GX 18044 18034 13820; GI 13820 28264; GX 17997 17998 17996; GI 17996 18045;
GX 18045 18041 28261; GX 28264 1298 30477; GX 28261 1301 30480; GX 18009 18010 18008; GI 18008 13823; GI 13823 28259;
GX 28259 1303 30482; GA 13705 13740 13686; GX 13686 18084 18104; GX 13687 18104 18077; GX 18077 18078 18076; GI 18076 13752;
GI 13752 28267; GX 28267 1343 30506; GX 18104 18075 13751; GI 13751 28268; GX 28268 1342 30505; GX 13763 18033 18006;
GA 13885 2359 13871; GA 13772 13813 13761; GX 13761 18021 18026; GX 18027 18026 18005; GX 18004 18005 28266; GX 28266 1296 30475;
GX 13769 18026 18031; GX 18031 18006 13821; GX 13766 18031 18042; GX 18028 18042 28263; GX 28263 1299 30478; GI 13821 28265;
GX 28265 1297 30476; GX 18035 18042 28262; GX 28262 1300 30479; GX 17111 17112 28622; GX 28622 1196 2356; GX 2358 2356 17943;
GX 2356 2357 17927; GX 17943 13888 13880; GA 13884 13880 13873; GX 13873 17946 17951; GX 2359 13880 13879; GA 13881 13879 13872;
GX 13866 13872 17956; GX 2357 17943 17945; GX 2353 17945 13877; GA 13888 13877 13867; GX 13866 13867 17926; GX 13867 17945 17947;
GX 17926 17927 17978; GX 17952 17945 13876; GA 13883 13876 13868; GX 17943 17912 13878; GA 13887 13878 13865; GX 13865 13871 17955;
GX 2354 17955 17970; GX 17956 17955 17934; GX 17944 17934 13861; GX 13865 13868 17949; GX 13866 17949 17969; GX 13869 17969 17925;
GX 2358 17925 13856; GX 17951 17947 17957; GX 2352 17956 17971; GX 17971 17957 13864; GX 2354 17945 13874; GA 13889 13874 13870;
GX 13870 17944 17950; GX 17978 17950 17975; GX 17950 17949 17935; GX 13869 17975 13863; GA 13864 13863 13860; GX 13860 17970 17924;
GX 17957 17924 13855; GA 13855 13856 13854; GX 13860 13854 13852; GX 13854 13871 17922; GX 17922 13868 17917; GX 13854 17969 17923;
GX 17947 17935 13862; GA 13862 13852 13851; GX 13851 13869 17954; GX 17954 17975 13843; GA 13843 13880 13841; GA 13843 13884 13832;
GX 13860 13862 13859; GA 13861 13859 13858; GX 13858 17957 17972; GX 17970 17972 13857; GA 13857 13876 13836; GA 13857 13883 13827;
GX 13851 13859 13849; GA 13857 13849 13848; GX 13848 17972 17916; GX 17971 17916 13844; GA 13844 13874 13838; GA 13844 13889 13829;
GX 13848 13872 17921; GX 13848 13861 13847; GA 13847 13882 13828; GX 13854 13862 13853; GA 13853 13885 13830; GA 13853 2359 13839;
GX 13836 13839 17967; GX 13870 13858 17919; GX 17951 17919 17915; GX 2354 17915 17914; GX 2352 17915 17918; GX 2358 17954 17962;
GX 17962 17923 13850; GA 13850 13879 13840; GA 13850 13881 13831; GX 17962 17921 17913; GX 17913 17914 13842; GA 13842 13890 13825;
GX 17944 17913 17920; GX 17917 17920 13846; GA 13846 13878 13833; GA 13846 13887 13824; GA 13842 13875 13834; GX 13829 13833 17961;
GX 13827 13839 17966; GX 13830 17966 17929; GX 13838 13841 17960; GI 17960 17931; GX 17967 17931 17942; GA 13847 13886 13837;
GX 13834 13837 17959; GX 17959 17961 17973; GX 13836 17973 17939; GX 17917 17918 13845; GA 13845 13888 13826; GX 13825 13826 17948;
GX 13828 17948 17968; GX 13829 17968 17941; GX 17968 17939 13893; GA 13845 13877 13835; GX 13835 13838 17936; GX 13835 13841 17965;
GX 13834 17965 17938; GX 17965 17961 17933; GX 13831 17948 17953; GX 13832 17953 17958; GX 13840 17958 17963; GX 17963 17938 13892;
GX 13837 17963 17974; GX 17967 17974 28254; GX 28254 1388 30583; GX 17960 17974 28255; GX 17959 17958 17937; GX 17936 17937 28258;
GX 28258 1384 30579; GX 28255 1387 30582; GX 17931 17953 17930; GX 17941 17942 17940; GI 17940 13894; GI 13894 28251;
GX 28251 1391 30586; GI 13892 28257; GX 28257 1385 30580; GX 13824 13826 17932; GX 17932 17933 17976; GX 17976 17966 13891;
GI 13891 28256; GX 28256 1386 30581; GX 17929 17930 17928; GI 17928 17977; GX 17977 17973 28253; GX 28253 1389 30584;
GI 13893 28252; GX 28252 1390 30585; GA 13956 2367 13942; GX 13936 13942 17887; GX 2362 17887 17902; GX 17888 17887 17866;
GX 13931 17902 17856; GX 17889 17856 13926; GA 13926 13927 13925; GX 13925 13942 17854; GX 13925 17901 17855; GX 13925 13933 13924;
GA 13924 13956 13901; GX 13931 13925 13923; GA 13933 13923 13922; GX 17876 17866 13932; GA 13932 13930 13929; GX 13929 17889 17904;
GX 17902 17904 13928; GA 13928 13947 13907; GX 17854 13939 17849; GA 13924 2367 13910; GX 13907 13910 17899; GX 13922 13940 17886;
GX 17886 17907 13914; GA 13914 13951 13912; GA 13914 13955 13903; GX 2366 17886 17894; GX 17894 17855 13921; GA 13921 13952 13902;
GX 13922 13930 13920; GA 13928 13920 13919; GX 13919 13932 13918; GA 13918 13957 13908; GA 13918 13953 13899; GX 13919 17904 17848;
GX 17903 17848 13915; GA 13915 13945 13909; GX 13909 13912 17892; GA 13915 13960 13900; GX 13919 13943 17853; GX 17894 17853 17845;
GX 17876 17845 17852; GX 17849 17852 13917; GA 13917 13958 13895; GI 17892 17863; GX 17899 17863 17874; GA 13917 13949 13904;
GX 13941 13929 17851; GX 17883 17851 17847; GX 2362 17847 17846; GX 17845 17846 13913; GA 13913 13946 13905; GA 13913 13961 13896;
GX 2360 17847 17850; GX 17849 17850 13916; GA 13916 13948 13906; GX 13906 13912 17897; GX 13905 17897 17870; GX 13906 13909 17868;
GA 13916 13959 13897; GX 13896 13897 17880; GX 13899 17880 17900; GX 13900 17900 17873; GX 17873 17874 17872; GI 17872 13965;
GI 13965 28243; GX 28243 1351 30562; GX 13902 17880 17885; GX 17863 17885 17862].
(** aes128_with_ks.txt:28254-28503 *)
Definition aes_enc_file_g113 : list gate := [
GX 13903 17885 17890; GA 13928 13954 13898; GX 13898 13910 17898; GX 13901 17898 17861; GX 17861 17862 17860; GI 17860 17909;
GA 13921 13950 13911; GX 13911 17890 17895; GX 17895 17870 13963; GX 13908 17895 17906; GX 17899 17906 28246; GX 28246 1348 30559;
GX 17892 17906 28247; GX 28247 1347 30558; GI 13963 28249; GX 28249 1345 30556; GX 13905 13908 17891; GX 17891 17890 17869;
GX 17868 17869 28250; GX 28250 1344 30555; GX 13900 13904 17893; GX 17891 17893 17905; GX 17909 17905 28245; GX 17897 17893 17865;
GX 13907 17905 17871; GX 17900 17871 13964; GI 13964 28244; GX 28244 1350 30561; GX 28245 1349 30560; GX 13895 13897 17864;
GX 17864 17865 17908; GX 17908 17898 13962; GI 13962 28248; GX 28248 1346 30557; GX 27287 27232 4248; GA 4248 4278 4242;
GX 4242 4245 27276; GA 4248 4293 4233; GI 27276 27247; GX 4233 4237 27277; GX 27281 27277 27249; GX 27248 27249 27292;
GX 27292 27282 4295; GI 4295 28721; GX 28721 28728 17316; GI 17316 17183; GX 28721 17156 17155; GX 17154 17155 28601;
GX 17321 17316 17166; GX 28707 17166 28592; GX 28592 1226 2386; GX 27283 27247 27258; GX 4239 4242 27252; GX 17183 28727 17181;
GX 17181 17182 28584; GX 28584 1218 2394; GX 17317 17316 17134; GX 28601 1233 2377; GX 2538 27231 27230; GX 27229 27230 4246;
GA 4246 4294 4229; GA 4246 4279 4238; GX 4238 27281 27254; GX 4238 4241 27275; GX 27275 27277 27289; GX 4240 27289 27255;
GX 4229 4230 27264; GX 4235 27264 27269; GX 27247 27269 27246; GX 27245 27246 27244; GX 4236 27269 27274; GX 4244 27274 27279;
GX 27279 27254 4296; GI 4296 28722; GX 28722 28729 17315; GX 17319 17315 17165; GX 28722 17134 28609; GX 17276 28722 17152;
GX 17152 17153 28602; GX 28602 1232 2376; GX 28708 17165 28593; GX 27275 27274 27253; GX 27252 27253 28723; GX 28723 28730 17284;
GI 17284 17139; GX 17328 17284 17151; GX 28716 28723 17275; GX 17315 17275 17133; GX 28709 17133 28610; GX 17275 28724 17023;
GX 28610 1240 2368; GX 17328 17275 17163; GX 27596 17163 28595; GI 17275 17031; GX 17031 28726 17028; GX 17275 28730 17177;
GX 17177 17178 28586; GI 27244 27293; GX 27293 27289 28718; GX 28718 28725 17322; GX 17322 28724 17185; GX 17185 17186 17184;
GI 17184 28581; GX 28581 1221 2397; GX 17146 17322 17144; GX 28718 17030 17029; GX 17028 17029 17357; GX 17357 17323 28598;
GX 17327 17322 17172; GX 28704 17172 28589; GX 28589 1229 2389; GX 4241 27279 27290; GX 27276 27290 28720; GX 17139 28720 17138;
GX 28720 28727 17318; GX 17319 17318 17135; GX 28720 28713 17159; GX 17356 17318 28583; GX 17158 17159 28600; GX 28600 1234 2378;
GX 2378 2376 17740; GX 27283 27290 28719; GX 17139 28719 17145; GX 17144 17145 28606; GX 28719 28726 17320; GX 17358 17320 28582;
GX 17321 17320 17137; GX 17137 17138 17136; GX 17162 17320 17170; GX 17170 17171 28590; GX 28590 1228 2388; GX 2388 2389 17655;
GI 17136 28607; GX 28607 1243 2371; GX 2371 2368 14030; GX 17146 17318 17167; GX 17167 17168 28591; GX 28591 1227 2387;
GX 2389 2387 14174; GX 28583 1219 2395; GX 2397 2395 14245; GX 28719 17027 17035; GX 28582 1220 2396; GX 2396 2397 17587;
GX 17315 28728 17179; GX 17179 17180 28585; GX 28585 1217 2393; GX 2395 2393 17606; GX 17606 2394 17571; GX 28721 17135 28608;
GX 28608 1242 2370; GX 2370 2368 17808; GX 28586 1216 2392; GX 2392 2397 14242; GX 2395 2392 14243; GX 2394 2392 17604;
GX 17604 14245 14230; GA 14245 14230 14221; GX 17606 17604 17572; GX 28595 1239 2383; GX 2383 2377 17748; GX 17740 17748 14096;
GX 2378 17748 14099; GX 28606 1244 2372; GX 28609 1241 2369; GX 2371 2369 17810; GX 17810 17808 17776; GX 17810 2370 17775;
GX 28723 17164 28594; GX 28594 1224 2384; GX 2387 2384 14172; GX 2384 2389 14171; GX 2386 2384 17672; GX 17672 14174 14159;
GA 14174 14159 14150; GX 17031 28727 17034; GX 17034 17035 17355; GX 17355 17321 28599; GX 28599 1235 2379; GX 2379 2377 17742;
GX 17742 17740 17708; GX 17742 2378 17707; GX 2383 17707 14098; GA 14098 2383 14084; GX 2379 2376 14101; GX 28593 1225 2385;
GX 2387 2385 17674; GX 17674 2386 17639; GX 17674 17672 17640; GX 4232 27264 27284; GX 4233 27284 27257; GX 27257 27258 27256;
GX 27256 17151 28603; GX 27256 28004 17024; GX 17023 17024 17359; GX 17359 17327 28596; GX 28596 1238 2382; GX 2382 14099 14095;
GX 2376 2382 14102; GA 14095 14099 14082; GX 27284 27255 4297; GI 4297 28717; GX 28717 17021 17161; GX 17160 17161 28597;
GX 17139 28717 17149; GX 28597 1237 2381; GX 2382 2381 17760; GX 17760 14096 14094; GX 2376 2381 14100; GX 14101 17760 14097;
GX 28603 1247 2375; GX 2375 2369 17816; GX 17808 17816 14025; GX 2375 17775 14027; GA 14027 2375 14013; GX 2370 17816 14028;
GX 27256 27596 17326; GX 17326 17276 17187; GX 28004 17187 28579; GX 28579 1223 2399; GX 2399 2393 17612; GX 2399 17571 14240;
GA 14240 2399 14226; GX 2394 17612 14241; GX 17326 17283 17176; GX 17604 17612 14238; GX 17150 17326 17148; GX 17148 17149 28604;
GX 28604 1246 2374; GX 2374 2372 17807; GX 17807 17776 14020; GX 17807 14030 14022; GX 2375 14022 14021; GX 2374 14028 14024;
GA 14024 14028 14011; GX 2381 2379 14103; GX 17740 14103 14088; GA 14103 14088 14079; GX 2368 2374 14031; GX 27664 17176 28587;
GX 28717 28724 17324; GX 17325 17324 17147; GX 28718 17147 28605; GX 17175 17324 17173; GX 17360 17324 28580; GX 28580 1222 2398;
GX 2398 2397 17624; GX 14243 17624 14239; GX 17173 17174 28588; GX 2392 2398 14244].
(** aes128_with_ks.txt:28504-28753 *)
Definition aes_enc_file_g114 : list gate := [
GX 28605 1245 2373; GX 2373 17807 17809; GX 2374 2373 17828; GX 17828 14025 14023; GA 14023 14021 14014; GX 2368 2373 14029;
GA 14029 14020 14007; GX 2372 2373 17791; GX 17816 17809 14018; GX 28588 1230 2390; GX 2384 2390 14173; GX 2398 14241 14237;
GA 14237 14241 14224; GA 14025 14018 14010; GX 14007 14010 17813; GX 17624 14238 14236; GX 2390 2389 17692; GX 14172 17692 14168;
GX 2369 17809 14019; GA 14030 14019 14009; GX 14009 17809 17811; GX 14007 14013 17819; GX 2370 17819 17834; GX 2390 2388 17671;
GX 17671 14172 14164; GA 14168 14164 14157; GX 14157 17674 17679; GX 2389 17671 17673; GX 2385 17673 14161; GA 14172 14161 14151;
GX 14151 17673 17675; GX 2386 17673 14158; GX 14150 14151 17654; GX 17654 17655 17706; GX 17671 17640 14162; GA 14171 14162 14149;
GA 14173 14158 14154; GX 14154 17672 17678; GX 17706 17678 17703; GX 17679 17675 17685; GX 14030 17828 14026; GA 14026 14022 14015;
GX 14015 17810 17815; GX 17815 17811 17821; GX 2370 17809 14016; GA 14031 14016 14012; GX 14012 17808 17814; GX 17814 17813 17799;
GX 17811 17799 14004; GX 2398 2396 17603; GX 17603 14243 14235; GA 14239 14235 14228; GX 2399 14235 14234; GA 14236 14234 14227;
GX 14221 14227 17616; GX 2392 17616 17631; GX 14228 17606 17611; GX 17603 17572 14233; GA 14242 14233 14220; GX 14220 14226 17615;
GX 17616 17615 17594; GX 17604 17594 14216; GX 2394 17615 17630; GX 2397 17603 17605; GX 2394 17605 14229; GX 2393 17605 14232;
GX 17612 17605 14231; GA 14238 14231 14223; GA 14243 14232 14222; GX 14222 17605 17607; GX 17611 17607 17617; GX 17631 17617 14219;
GX 14220 14223 17609; GX 14221 14222 17586; GX 17586 17587 17638; GX 14221 17609 17629; GA 14244 14229 14225; GX 14225 17604 17610;
GX 17638 17610 17635; GX 14224 17635 14218; GX 17610 17609 17595; GX 14224 17629 17585; GX 2398 17585 14211; GX 17607 17595 14217;
GA 14219 14218 14215; GX 14215 14217 14214; GX 14215 17630 17584; GX 17617 17584 14210; GA 14216 14214 14213; GX 14225 14213 17579;
GX 17611 17579 17575; GX 2392 17575 17578; GX 14213 17617 17632; GX 17630 17632 14212; GA 14212 14238 14182; GA 14210 14211 14209;
GX 14209 14226 17582; GX 14209 14217 14208; GX 17582 14223 17577; GX 17577 17578 14200; GA 14208 14240 14185; GA 14208 2399 14194;
GX 14182 14194 17626; GX 14185 17626 17589; GX 14215 14209 14207; GA 14217 14207 14206; GX 14206 14214 14204; GA 14212 14204 14203;
GX 14203 14216 14202; GX 14203 17632 17576; GX 14206 14224 17614; GX 17614 17635 14198; GA 14198 14239 14187; GA 14198 14235 14196;
GX 14203 14227 17581; GX 2398 17614 17622; GX 17622 17581 17573; GX 17604 17573 17580; GX 17577 17580 14201; GX 17631 17576 14199;
GA 14199 14244 14184; GA 14199 14229 14193; GX 14193 14196 17620; GI 17620 17591; GA 14202 14241 14192; GA 14202 14237 14183;
GA 14200 14232 14190; GX 14190 14196 17625; GX 14209 17629 17583; GX 17622 17583 14205; GA 14205 14234 14195; GA 14205 14236 14186;
GA 14201 14233 14188; GX 14184 14188 17621; GX 17625 17621 17593; GA 14201 14242 14179; GX 14190 14193 17596; GA 14200 14243 14181;
GX 14179 14181 17592; GX 17592 17593 17636; GX 17636 17626 14246; GI 14246 28216; GX 28216 1378 30589; GA 14212 14231 14191;
GX 14191 14194 17627; GX 17627 17591 17602; GX 2373 2371 14032; GX 17808 14032 14017; GA 14032 14017 14008; GX 14008 14014 17820;
GX 2368 17820 17835; GX 14008 14009 17790; GX 17790 17791 17842; GX 17820 17819 17798; GX 17808 17798 14003; GX 17835 17821 14006;
GX 17842 17814 17839; GX 14011 17839 14005; GA 14006 14005 14002; GX 14002 17834 17788; GX 17821 17788 13997; GX 14002 14004 14001;
GA 14003 14001 14000; GX 14012 14000 17783; GX 14000 17821 17836; GX 17834 17836 13999; GA 13999 14025 13969; GX 17815 17783 17779;
GX 2370 17779 17778; GX 2368 17779 17782; GA 13999 14018 13978; GX 14008 17813 17833; GX 14011 17833 17789; GX 2374 17789 13998;
GA 13997 13998 13996; GX 13996 14013 17786; GX 13996 17833 17787; GX 17786 14010 17781; GX 17781 17782 13987; GA 13987 14019 13977;
GA 13987 14030 13968; GX 14002 13996 13994; GA 14004 13994 13993; GX 13993 14011 17818; GX 2374 17818 17826; GX 17818 17839 13985;
GA 13985 14026 13974; GA 13985 14022 13983; GX 13977 13983 17829; GX 17826 17787 13992; GA 13992 14023 13973; GA 13992 14021 13982;
GX 13993 14001 13991; GA 13999 13991 13990; GX 13990 17836 17780; GX 13990 14014 17785; GX 17826 17785 17777; GX 17808 17777 17784;
GX 17781 17784 13988; GA 13988 14020 13975; GA 13988 14029 13966; GX 17777 17778 13984; GA 13984 14032 13967; GA 13984 14017 13976;
GX 13976 17829 17802; GX 13967 13968 17812; GX 13966 13968 17796; GX 13990 14003 13989; GA 13989 14028 13979; GA 13989 14024 13970;
GX 13970 17812 17832; GX 13976 13979 17823; GX 17835 17780 13986; GA 13986 14031 13971; GX 13971 17832 17805; GX 13971 13975 17825;
GX 17829 17825 17797; GX 17796 17797 17840; GA 13986 14016 13980; GX 13977 13980 17800; GX 13980 13983 17824; GI 17824 17795;
GX 13973 17812 17817; GX 17795 17817 17794; GX 13974 17817 17822; GX 17823 17822 17801; GX 17800 17801 28242; GX 28242 1368 30531;
GX 13982 17822 17827; GX 13979 17827 17838; GX 17824 17838 28239; GX 28239 1371 30534; GX 17827 17802 14034; GI 14034 28241;
GX 28241 1369 30532; GX 13996 14004 13995; GA 13995 14027 13972; GA 13995 2375 13981; GX 13969 13981 17830; GX 13972 17830 17793;
GX 17840 17830 14033; GX 13978 13981 17831; GX 17831 17838 28238; GX 28238 1372 30535; GI 14033 28240; GX 28240 1370 30533;
GX 17831 17795 17806; GX 17805 17806 17804; GI 17804 14036; GI 14036 28235].
(** aes128_with_ks.txt:28754-29003 *)
Definition aes_enc_file_g115 : list gate := [
GX 28235 1375 30538; GX 17793 17794 17792; GI 17792 17841; GX 2394 17575 17574; GX 17573 17574 14197; GA 14197 14245 14180;
GX 14180 14181 17608; GX 14186 17608 17613; GX 17591 17613 17590; GX 17589 17590 17588; GI 17588 17637; GX 14187 17613 17618;
GX 14195 17618 17623; GX 14192 17623 17634; GX 17620 17634 28215; GX 28215 1379 30590; GX 14183 17608 17628; GX 14184 17628 17601;
GX 17601 17602 17600; GI 17600 14249; GI 14249 28211; GA 14197 14230 14189; GX 17627 17634 28214; GX 28214 1380 30591;
GX 28211 1383 30594; GX 14189 14192 17619; GX 17619 17618 17597; GX 17619 17621 17633; GX 17596 17597 28218; GX 28218 1376 30587;
GX 17637 17633 28213; GX 28213 1381 30592; GX 14191 17633 17599; GX 14189 17625 17598; GX 17623 17598 14247; GI 14247 28217;
GX 28217 1377 30588; GX 17628 17599 14248; GI 14248 28212; GX 28212 1382 30593; GX 28598 1236 2380; GX 2382 2380 17739;
GX 17739 17708 14091; GA 14100 14091 14078; GX 17739 14101 14093; GX 2383 14093 14092; GA 14094 14092 14085; GA 14097 14093 14086;
GX 14079 14085 17752; GX 14078 14084 17751; GX 17752 17751 17730; GX 17740 17730 14074; GX 2378 17751 17766; GX 2376 17752 17767;
GX 2381 17739 17741; GX 2377 17741 14090; GX 17748 17741 14089; GA 14101 14090 14080; GX 14080 17741 17743; GX 14079 14080 17722;
GA 14096 14089 14081; GX 2378 17741 14087; GX 14078 14081 17745; GX 14079 17745 17765; GA 14102 14087 14083; GX 14083 17740 17746;
GX 17746 17745 17731; GX 17743 17731 14075; GX 14082 17765 17721; GX 2382 17721 14069; GX 2380 2381 17723; GX 17722 17723 17774;
GX 17774 17746 17771; GX 14082 17771 14076; GX 14086 17742 17747; GX 17747 17743 17753; GX 17767 17753 14077; GA 14077 14076 14073;
GX 14073 17766 17720; GX 17753 17720 14068; GA 14068 14069 14067; GX 14067 14075 14066; GX 14067 14084 17718; GX 17718 14081 17713;
GX 14067 17765 17719; GX 14073 14067 14065; GA 14066 2383 14052; GA 14075 14065 14064; GX 14064 14082 17750; GX 17750 17771 14056;
GA 14056 14097 14045; GA 14056 14093 14054; GX 2382 17750 17758; GX 17758 17719 14063; GA 14063 14094 14044; GA 14063 14092 14053;
GA 14066 14098 14043; GX 14073 14075 14072; GX 14064 14072 14062; GA 14074 14072 14071; GX 14071 17753 17768; GX 14083 14071 17715;
GX 17747 17715 17711; GX 2376 17711 17714; GX 17713 17714 14058; GX 2378 17711 17710; GA 14058 14101 14039; GA 14058 14090 14048;
GX 14048 14054 17761; GX 17766 17768 14070; GA 14070 14062 14061; GX 14061 17768 17712; GX 14061 14074 14060; GA 14060 14095 14041;
GA 14070 14089 14049; GX 14049 14052 17763; GA 14070 14096 14040; GX 14061 14085 17717; GX 17758 17717 17709; GX 17740 17709 17716;
GX 17709 17710 14055; GA 14055 14088 14047; GA 14055 14103 14038; GX 14047 17761 17734; GX 17713 17716 14059; GA 14059 14100 14037;
GX 14037 14039 17728; GA 14059 14091 14046; GX 14040 14052 17762; GX 14043 17762 17725; GA 14060 14099 14050; GX 14047 14050 17755;
GX 14038 14039 17744; GX 14041 17744 17764; GX 14044 17744 17749; GX 14045 17749 17754; GX 14053 17754 17759; GX 14050 17759 17770;
GX 17755 17754 17733; GX 17763 17770 28230; GX 28230 1332 30511; GX 17767 17712 14057; GA 14057 14102 14042; GX 14042 14046 17757;
GX 17755 17757 17769; GX 14049 17769 17735; GX 17764 17735 14106; GA 14057 14087 14051; GX 14051 14054 17756; GX 17756 17770 28231;
GX 28231 1331 30510; GX 14048 14051 17732; GX 17732 17733 28234; GX 28234 1328 30507; GI 17756 17727; GX 17727 17749 17726;
GX 14042 17764 17737; GI 14106 28228; GX 28228 1334 30513; GX 17761 17757 17729; GX 17728 17729 17772; GX 17772 17762 14104;
GI 14104 28232; GX 28232 1330 30509; GX 17763 17727 17738; GX 17737 17738 17736; GI 17736 14107; GI 14107 28227;
GX 28227 1335 30514; GX 17759 17734 14105; GI 14105 28233; GX 28233 1329 30508; GX 17725 17726 17724; GI 17724 17773;
GX 17773 17769 28229; GX 28229 1333 30512; GX 17823 17825 17837; GX 13978 17837 17803; GX 17832 17803 14035; GI 14035 28236;
GX 28236 1374 30537; GX 17841 17837 28237; GX 28237 1373 30536; GX 28587 1231 2391; GX 2391 2385 17680; GX 2386 17680 14170;
GX 17672 17680 14167; GX 17692 14167 14165; GX 2390 14170 14166; GA 14166 14170 14153; GX 14153 17703 14147; GX 17680 17673 14160;
GX 2391 17639 14169; GA 14169 2391 14155; GX 14149 14155 17683; GX 2386 17683 17698; GA 14167 14160 14152; GX 14149 14152 17677;
GX 14150 17677 17697; GX 14153 17697 17653; GX 2390 17653 14140; GX 17678 17677 17663; GX 17675 17663 14146; GX 2391 14164 14163;
GA 14165 14163 14156; GX 14150 14156 17684; GX 2384 17684 17699; GX 17699 17685 14148; GA 14148 14147 14144; GX 14144 14146 14143;
GX 14144 17698 17652; GX 17685 17652 14139; GA 14139 14140 14138; GX 14138 17697 17651; GX 14144 14138 14136; GA 14146 14136 14135;
GX 14135 14153 17682; GX 2390 17682 17690; GX 17682 17703 14127; GA 14127 14164 14125; GA 14127 14168 14116; GX 17684 17683 17662;
GX 17672 17662 14145; GA 14145 14143 14142; GX 14154 14142 17647; GX 17679 17647 17643; GX 14142 17685 17700; GX 17698 17700 14141;
GA 14141 14167 14111; GA 14141 14160 14120; GX 2384 17643 17646; GX 14138 14146 14137; GA 14137 2391 14123; GX 14111 14123 17694;
GA 14137 14169 14114; GX 14114 17694 17657; GX 14120 14123 17695; GX 14135 14143 14133; GX 2386 17643 17642; GX 17690 17651 14134;
GA 14134 14163 14124; GA 14134 14165 14115; GA 14141 14133 14132; GX 14132 14145 14131; GA 14131 14170 14121; GX 14132 17700 17644;
GX 14132 14156 17649; GX 17690 17649 17641; GX 17641 17642 14126; GX 17672 17641 17648].
(** aes128_with_ks.txt:29004-29062 *)
Definition aes_enc_file_g116 : list gate := [
GX 17699 17644 14128; GA 14128 14173 14113; GA 14128 14158 14122; GA 14131 14166 14112; GA 14126 14174 14109; GX 14122 14125 17688;
GI 17688 17659; GX 17695 17659 17670; GA 14126 14159 14118; GX 14118 14121 17687; GX 14138 14155 17650; GX 17650 14152 17645;
GX 17645 17648 14130; GA 14130 14162 14117; GX 17645 17646 14129; GA 14129 14172 14110; GA 14129 14161 14119; GX 14119 14122 17664;
GX 14109 14110 17676; GX 14115 17676 17681; GX 17659 17681 17658; GX 14116 17681 17686; GX 14124 17686 17691; GX 17687 17686 17665;
GX 17664 17665 28226; GX 28226 1288 30483; GX 14121 17691 17702; GX 17695 17702 28222; GX 28222 1292 30487; GX 17657 17658 17656;
GI 17656 17705; GX 14112 17676 17696; GX 17688 17702 28223; GX 14113 17696 17669; GX 17669 17670 17668; GI 17668 14178;
GA 14130 14171 14108; GX 14108 14110 17660; GX 14113 14117 17689; GX 17687 17689 17701; GX 14120 17701 17667; GX 17705 17701 28221;
GX 28221 1293 30488; GI 14178 28219; GX 28219 1295 30490; GX 17696 17667 14177; GI 14177 28220; GX 28223 1291 30486;
GX 14119 14125 17693; GX 17693 17689 17661; GX 17660 17661 17704; GX 14118 17693 17666; GX 17691 17666 14176; GI 14176 28225;
GX 28225 1289 30484; GX 17704 17694 14175; GI 14175 28224; GX 28224 1290 30485; GX 28220 1294 30489].
(** all gates and the header (aes128_with_ks.txt:1-2) *)
Definition aes_enc_file_gates : list gate := concat [aes_enc_file_g0; aes_enc_file_g1; aes_enc_file_g2; aes_enc_file_g3; aes_enc_file_g4; aes_enc_file_g5; aes_enc_file_g6; aes_enc_file_g7; aes_enc_file_g8; aes_enc_file_g9; aes_enc_file_g10; aes_enc_file_g11; aes_enc_file_g12; aes_enc_file_g13; aes_enc_file_g14; aes_enc_file_g15; aes_enc_file_g16; aes_enc_file_g17; aes_enc_file_g18; aes_enc_file_g19; aes_enc_file_g20; aes_enc_file_g21; aes_enc_file_g22; aes_enc_file_g23; aes_enc_file_g24; aes_enc_file_g25; aes_enc_file_g26; aes_enc_file_g27; aes_enc_file_g28; aes_enc_file_g29; aes_enc_file_g30; aes_enc_file_g31; aes_enc_file_g32; aes_enc_file_g33; aes_enc_file_g34; aes_enc_file_g35; aes_enc_file_g36; aes_enc_file_g37; aes_enc_file_g38; aes_enc_file_g39; aes_enc_file_g40; aes_enc_file_g41; aes_enc_file_g42; aes_enc_file_g43; aes_enc_file_g44; aes_enc_file_g45; aes_enc_file_g46; aes_enc_file_g47; aes_enc_file_g48; aes_enc_file_g49; aes_enc_file_g50; aes_enc_file_g51; aes_enc_file_g52; aes_enc_file_g53; aes_enc_file_g54; aes_enc_file_g55; aes_enc_file_g56; aes_enc_file_g57; aes_enc_file_g58; aes_enc_file_g59; aes_enc_file_g60; aes_enc_file_g61; aes_enc_file_g62; aes_enc_file_g63; aes_enc_file_g64; aes_enc_file_g65; aes_enc_file_g66; aes_enc_file_g67; aes_enc_file_g68; aes_enc_file_g69; aes_enc_file_g70; aes_enc_file_g71; aes_enc_file_g72; aes_enc_file_g73; aes_enc_file_g74; aes_enc_file_g75; aes_enc_file_g76; aes_enc_file_g77; aes_enc_file_g78; aes_enc_file_g79; aes_enc_file_g80; aes_enc_file_g81; aes_enc_file_g82; aes_enc_file_g83; aes_enc_file_g84; aes_enc_file_g85; aes_enc_file_g86; aes_enc_file_g87; aes_enc_file_g88; aes_enc_file_g89; aes_enc_file_g90; aes_enc_file_g91; aes_enc_file_g92; aes_enc_file_g93; aes_enc_file_g94; aes_enc_file_g95; aes_enc_file_g96; aes_enc_file_g97; aes_enc_file_g98; aes_enc_file_g99; aes_enc_file_g100; aes_enc_file_g101; aes_enc_file_g102; aes_enc_file_g103; aes_enc_file_g104; aes_enc_file_g105; aes_enc_file_g106; aes_enc_file_g107; aes_enc_file_g108; aes_enc_file_g109; aes_enc_file_g110; aes_enc_file_g111; aes_enc_file_g112; aes_enc_file_g113; aes_enc_file_g114; aes_enc_file_g115; aes_enc_file_g116].
Definition aes_enc_file : bristol := mkBristol 30595 1408 128 128 aes_enc_file_gates.
