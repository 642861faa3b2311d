(** The figures of DrawingML, and which of them a kind of shape stands for. *)
From Coq Require Import String List.
From Verif Require Import ShapeModel.
Import ListNotations.
Open Scope string_scope.

(** ECMA-376 part 1, 20.1.10.56 [ST_ShapeType]: the names of the preset figures. *)
Definition preset_figures : list string := [
   "line"; "lineInv"; "triangle"; "rtTriangle"; "rect"; "diamond"; "parallelogram"; "trapezoid"; "nonIsoscelesTrapezoid"; "pentagon"; "hexagon";
   "heptagon"; "octagon"; "decagon"; "dodecagon"; "star4"; "star5"; "star6"; "star7"; "star8"; "star10"; "star12"; "star16"; "star24"; "star32";
   "roundRect"; "round1Rect"; "round2SameRect"; "round2DiagRect"; "snipRoundRect"; "snip1Rect"; "snip2SameRect"; "snip2DiagRect"; "plaque"; "ellipse";
   "teardrop"; "homePlate"; "chevron"; "pieWedge"; "pie"; "blockArc"; "donut"; "noSmoking"; "rightArrow"; "leftArrow"; "upArrow"; "downArrow";
   "stripedRightArrow"; "notchedRightArrow"; "bentUpArrow"; "leftRightArrow"; "upDownArrow"; "leftUpArrow"; "leftRightUpArrow"; "quadArrow";
   "leftArrowCallout"; "rightArrowCallout"; "upArrowCallout"; "downArrowCallout"; "leftRightArrowCallout"; "upDownArrowCallout"; "quadArrowCallout";
   "bentArrow"; "uturnArrow"; "circularArrow"; "leftCircularArrow"; "leftRightCircularArrow"; "curvedRightArrow"; "curvedLeftArrow"; "curvedUpArrow";
   "curvedDownArrow"; "swooshArrow"; "cube"; "can"; "lightningBolt"; "heart"; "sun"; "moon"; "smileyFace"; "irregularSeal1"; "irregularSeal2";
   "foldedCorner"; "bevel"; "frame"; "halfFrame"; "corner"; "diagStripe"; "chord"; "arc"; "leftBracket"; "rightBracket"; "leftBrace"; "rightBrace";
   "bracketPair"; "bracePair"; "straightConnector1"; "bentConnector2"; "bentConnector3"; "bentConnector4"; "bentConnector5"; "curvedConnector2";
   "curvedConnector3"; "curvedConnector4"; "curvedConnector5"; "callout1"; "callout2"; "callout3"; "accentCallout1"; "accentCallout2";
   "accentCallout3"; "borderCallout1"; "borderCallout2"; "borderCallout3"; "accentBorderCallout1"; "accentBorderCallout2"; "accentBorderCallout3";
   "wedgeRectCallout"; "wedgeRoundRectCallout"; "wedgeEllipseCallout"; "cloudCallout"; "cloud"; "ribbon"; "ribbon2"; "ellipseRibbon";
   "ellipseRibbon2"; "leftRightRibbon"; "verticalScroll"; "horizontalScroll"; "wave"; "doubleWave"; "plus"; "flowChartProcess"; "flowChartDecision";
   "flowChartInputOutput"; "flowChartPredefinedProcess"; "flowChartInternalStorage"; "flowChartDocument"; "flowChartMultidocument";
   "flowChartTerminator"; "flowChartPreparation"; "flowChartManualInput"; "flowChartManualOperation"; "flowChartConnector"; "flowChartPunchedCard";
   "flowChartPunchedTape"; "flowChartSummingJunction"; "flowChartOr"; "flowChartCollate"; "flowChartSort"; "flowChartExtract"; "flowChartMerge";
   "flowChartOfflineStorage"; "flowChartOnlineStorage"; "flowChartMagneticTape"; "flowChartMagneticDisk"; "flowChartMagneticDrum"; "flowChartDisplay";
   "flowChartDelay"; "flowChartAlternateProcess"; "flowChartOffpageConnector"; "actionButtonBlank"; "actionButtonHome"; "actionButtonHelp";
   "actionButtonInformation"; "actionButtonForwardNext"; "actionButtonBackPrevious"; "actionButtonEnd"; "actionButtonBeginning"; "actionButtonReturn";
   "actionButtonDocument"; "actionButtonSound"; "actionButtonMovie"; "gear6"; "gear9"; "funnel"; "mathPlus"; "mathMinus"; "mathMultiply";
   "mathDivide"; "mathEqual"; "mathNotEqual"; "cornerTabs"; "squareTabs"; "plaqueTabs"; "chartX"; "chartStar"; "chartPlus"].

(** The figure that each kind of shape asks for. None: the library has no
    name from the list above for it (see C50_figure_refuted). *)
Definition figure (t : shape_type) : option string :=
  match t with
   | KRectangle => Some "rect" | KRoundedRectangle => Some "roundRect" | KEllipse => Some "ellipse" | KCircle => Some "ellipse"
   | KTriangle => Some "triangle" | KRightTriangle => Some "rtTriangle" | KDiamond => Some "diamond" | KPentagon => Some "pentagon"
   | KHexagon => Some "hexagon" | KOctagon => Some "octagon" | KRightArrow => Some "rightArrow" | KLeftArrow => Some "leftArrow"
   | KUpArrow => Some "upArrow" | KDownArrow => Some "downArrow" | KLeftRightArrow => Some "leftRightArrow" | KUpDownArrow => Some "upDownArrow"
   | KBentArrow => Some "bentArrow" | KUTurnArrow => Some "uturnArrow" | KStar4 => Some "star4" | KStar5 => Some "star5" | KStar6 => Some "star6"
   | KStar8 => Some "star8" | KRibbon => Some "ribbon2" | KWave => Some "wave" | KWedgeRectCallout => Some "wedgeRectCallout"
   | KWedgeEllipseCallout => Some "wedgeEllipseCallout" | KCloudCallout => Some "cloudCallout" | KFlowChartProcess => Some "flowChartProcess"
   | KFlowChartDecision => Some "flowChartDecision" | KFlowChartTerminator => Some "flowChartTerminator"
   | KFlowChartDocument => Some "flowChartDocument" | KFlowChartPredefinedProcess => Some "flowChartPredefinedProcess"
   | KFlowChartInternalStorage => Some "flowChartInternalStorage" | KFlowChartInputOutput => Some "flowChartInputOutput"
   | KFlowChartManualInput => Some "flowChartManualInput" | KFlowChartManualOperation => Some "flowChartManualOperation"
   | KFlowChartConnector => Some "flowChartConnector" | KFlowChartPunchedCard => Some "flowChartPunchedCard"
   | KFlowChartPunchedTape => Some "flowChartPunchedTape" | KFlowChartSummingJunction => Some "flowChartSummingJunction"
   | KFlowChartOr => Some "flowChartOr" | KFlowChartCollate => Some "flowChartCollate" | KFlowChartSort => Some "flowChartSort"
   | KFlowChartExtract => Some "flowChartExtract" | KFlowChartMerge => Some "flowChartMerge"
   | KFlowChartOnlineStorage => Some "flowChartOnlineStorage" | KFlowChartDelay => Some "flowChartDelay"
   | KFlowChartMagneticTape => Some "flowChartMagneticTape" | KFlowChartMagneticDisk => Some "flowChartMagneticDisk"
   | KFlowChartMagneticDrum => Some "flowChartMagneticDrum" | KFlowChartDisplay => Some "flowChartDisplay"
   | KFlowChartPreparation => Some "flowChartPreparation" | KCurvedRightArrow => Some "curvedRightArrow" | KCurvedLeftArrow => Some "curvedLeftArrow"
   | KCurvedUpArrow => Some "curvedUpArrow" | KCurvedDownArrow => Some "curvedDownArrow" | KStripedRightArrow => Some "stripedRightArrow"
   | KNotchedRightArrow => Some "notchedRightArrow" | KChevronArrow => Some "chevron" | KRightArrowCallout => Some "rightArrowCallout"
   | KLeftArrowCallout => Some "leftArrowCallout" | KUpArrowCallout => Some "upArrowCallout" | KDownArrowCallout => Some "downArrowCallout"
   | KLeftRightArrowCallout => Some "leftRightArrowCallout" | KUpDownArrowCallout => Some "upDownArrowCallout" | KQuadArrow => Some "quadArrow"
   | KLeftRightUpArrow => Some "leftRightUpArrow" | KCircularArrow => Some "circularArrow" | KParallelogram => Some "parallelogram"
   | KTrapezoid => Some "trapezoid" | KNonIsoscelesTrapezoid => Some "nonIsoscelesTrapezoid" | KCube => Some "cube" | KCan => Some "can"
   | KBevel => Some "bevel" | KDonut => Some "donut" | KNoSmoking => Some "noSmoking" | KBlockArc => Some "blockArc"
   | KFoldedCorner => Some "foldedCorner" | KSmileyFace => Some "smileyFace" | KArc => Some "arc" | KChord => Some "chord" | KPie => Some "pie"
   | KTeardrop => Some "teardrop" | KPlaque => Some "plaque" | KPictureFrame => Some "frame" | KStar10 => Some "star10" | KStar12 => Some "star12"
   | KStar16 => Some "star16" | KStar24 => Some "star24" | KStar32 => Some "star32" | KActionButtonBlank => Some "actionButtonBlank"
   | KActionButtonHome => Some "actionButtonHome" | KActionButtonHelp => Some "actionButtonHelp"
   | KActionButtonInformation => Some "actionButtonInformation" | KActionButtonForwardNext => Some "actionButtonForwardNext"
   | KActionButtonBackPrevious => Some "actionButtonBackPrevious" | KActionButtonBeginning => Some "actionButtonBeginning"
   | KActionButtonEnd => Some "actionButtonEnd" | KActionButtonReturn => Some "actionButtonReturn"
   | KActionButtonDocument => Some "actionButtonDocument" | KActionButtonSound => Some "actionButtonSound"
   | KActionButtonMovie => Some "actionButtonMovie" | KHeart => Some "heart" | KLightning => Some "lightningBolt" | KSun => Some "sun"
   | KMoon => Some "moon" | KCloud => Some "cloud" | KBrace => Some "leftBrace" | KBracket => Some "leftBracket" | KPlus => Some "mathPlus"
   | KMinus => Some "mathMinus"
  | KFlowChartData | KFlowChartOffPageConnector | KCurvedLeftRightArrow | KCurvedUpDownArrow | KPentagonArrow | KIsoscelesTrapezoid | KCone | KCylinder | KMusicNote | KSeal | KSeal4 | KSeal8 | KSeal16 | KSeal32 => None
  end.
